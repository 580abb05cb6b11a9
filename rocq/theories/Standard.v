(** Files without the SDCH version byte: the tolerance about interleaved windows
    does not matter. *)

From Verif Require Import Base Spec Varint VarintFacts AddrCacheFacts BodyFacts Decoder Session Reuse Files Chunked.
From Coq Require Import ZifyBool ZifyNat.

Lemma windows_no_ext : forall f dict ok prev ws out, f_ext f = false ->
  windows lax lax f dict ok prev ws out -> windows (tol false) (tol false) f dict ok prev ws out.
Proof.
  intros f dict ok prev ws out NE H. induction H as [prev|prev w T rest out W K R IH]; [constructor|].
  apply ws_cons with (T := T); auto. destruct rest; apply (window_no_ext lax); auto.
Qed.

Lemma head_standard : forall t tl h v tbl ns ss, head t tl h v tbl ns ss -> t = lax -> tl = lax ->
  forall y, ~ s_version (h ++ y) -> head (tol false) (tol false) h v tbl ns ss /\ v = 0.
Proof.
  induction 1 as [tl0 v0 ind V BI I0 I1|tl0 v0 ind bn ns0 bs ss0 h vi tbli nsi ssi ws s tbl0 V BI I0 I1 VN VS NSL SSL HD IH MF WS L UC];
    intros -> -> y NS; (destruct V as [-> | ->]; [|destruct NS; rewrite <- ?app_assoc; apply sv_here]).
  - split; [|reflexivity]. constructor; auto.
  - destruct (IH eq_refl eq_refl (ws ++ y)) as [HD' ->].
    { intros X. apply NS. rewrite <- !app_assoc. eapply sv_nested; eauto. }
    split; [|reflexivity]. eapply head_custom; eauto. apply windows_no_ext; auto.
Qed.

Lemma file_standard : forall allow ok dict X out, vcd_file lax lax allow ok dict X out -> ~ s_version X ->
  vcd_file (tol false) (tol false) allow ok dict X out.
Proof.
  intros allow ok dict X out [|h v tbl ns ss ws o HD MF WS] NS; [constructor|].
  assert (head lax lax h v tbl ns ss) as HD' by (destruct ws; exact HD).
  destruct (head_standard _ _ _ _ _ _ _ HD' eq_refl eq_refl ws NS) as [H ->].
  apply file_intro with (version := 0) (tbl := tbl) (ns := ns) (ss := ss); auto.
  - destruct ws; exact H.
  - apply windows_no_ext; auto.
Qed.
