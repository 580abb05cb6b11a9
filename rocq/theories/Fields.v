(** Consequences of soundness and unambiguity for one window of a file. *)

From Coq Require Import ZifyBool ZifyNat.
From Verif Require Import Base Spec VarintFacts AddrCacheFacts BodyFacts Unique.

(** Two parses agree on where windows begin. *)
Lemma windows_align : forall t tl f dict ok prev ws mid, windows t tl f dict ok prev ws mid ->
  forall t' tl' f' ok' y out, same_format f f' -> windows t' tl' f' dict ok' prev (ws ++ y) out ->
  windows t' tl' f' dict ok' mid y out.
Proof.
  induction 1 as [prev|prev w T rest out0 W K R IH]; intros t' tl' f' ok' y out SF H'.
  - exact H'.
  - rewrite <- app_assoc in H'. remember (w ++ rest ++ y) as x. destruct H' as [prev|prev w' T' rest' out W' K' R'].
    + symmetry in Heqx. apply app_eq_nil in Heqx as [-> _]. apply window_ne in W. congruence.
    + destruct (window_inj _ _ _ _ _ _ _ _ _ _ _ _ SF W W' (eq_sym Heqx)) as (-> & -> & <-).
      eapply IH; eauto.
Qed.

(** The window that follows a well-formed beginning of an accepted file. *)
Lemma window_at : forall t tl allow ok dict X out th tlh tw tlw allow' ok' h v tbl ns ss ws prev y,
  vcd_file t tl allow ok dict X out -> X = h ++ ws ++ y -> y <> [] ->
  head th tlh h v tbl ns ss -> windows tw tlw (file_format v tbl ns ss allow') dict ok' [] ws prev ->
  exists t0 wb T rest, y = wb ++ rest /\ Spec.window t0 (file_format v tbl ns ss allow) dict prev wb T /\
    ok prev T /\ (exists more, out = prev ++ T ++ more) /\ ns + ss + 1 <= 255 /\
    windows t tl (file_format v tbl ns ss allow) dict ok (prev ++ T) rest out.
Proof.
  intros t tl allow ok dict X out th tlh tw tlw allow' ok' h v tbl ns ss ws prev y F E YN HD WS.
  destruct F as [|h' v' tbl' ns' ss' ws' out HD' MF WS'].
  { inversion HD; subst; discriminate. }
  destruct (head_inj _ _ _ _ _ _ _ HD' _ _ _ _ _ _ _ _ _ HD E) as (-> & -> & -> & -> & -> & ->).
  assert (same_format (file_format v tbl ns ss allow') (file_format v tbl ns ss allow)) as SF.
  { pose proof (head_near _ _ _ _ _ _ _ HD). unfold same_format; cbn; auto. }
  pose proof (windows_align _ _ _ _ _ _ _ _ WS _ _ _ _ _ _ SF WS') as W.
  assert (ns + ss + 1 <= 255) as NS by (destruct MF as [MF|MF]; [apply app_eq_nil in MF; tauto|exact MF]).
  destruct W as [prev|prev wb T rest out W K R]; [congruence|].
  eexists _, wb, T, rest. split; [reflexivity|]. split; [exact W|]. split; [exact K|]. split; [|split; [exact NS|exact R]].
  assert (forall prev ws out, windows t tl (file_format v tbl ns ss allow) dict ok prev ws out -> exists m, out = prev ++ m) as P.
  { clear. induction 1 as [prev|prev w T rest out W K R [m IH]]; [exists []; rewrite app_nil_r; reflexivity|].
    exists (T ++ m). rewrite app_assoc. exact IH. }
  destruct (P _ _ _ R) as [m ->]. exists m. rewrite <- app_assoc. reflexivity.
Qed.

(** What its fields declare. *)
Lemma window_declares : forall t f dict prev wb T rest hd y H,
  Spec.window t f dict prev wb T -> wb ++ rest = hd ++ y -> declares (f_ext f) hd H ->
  zlen T = h_target_len H /\
  h_delta_len H = h_counted H + h_data_len H + h_inst_len H + h_addr_len H /\
  (forall c, h_checksum H = Some c -> c = adler_sum 0 T) /\
  (Z.testbit (h_ind H) 1 = true -> Z.testbit (h_ind H) 0 = false /\ f_target f = true) /\
  exists seg items hist body, y = body ++ rest /\
    layout t f items (h_data_len H) (h_inst_len H) (h_addr_len H) body /\
    items_mean (t_drop t) (f_table f) (f_near f) (f_same f) (zlen T) seg items ([], []) (hist, T).
Proof.
  intros t f dict prev wb T rest hd y H W E D.
  inversion W as [ind sb seg bd dl bt di bnd nd bni ni bna na bcks items body hist T1 BI SG VD VT BDI DI VND VNI VNA CF LA DL IM EW ET]; subst wb T1.
  destruct D as [ind' sb' bd' dl' bt' tl' di' bnd' nd' bni' ni' bna' na' bck' c SF VD' VT' VND' VNI' VNA' CB].
  cbn [h_ind h_delta_len h_counted h_target_len h_data_len h_inst_len h_addr_len h_checksum].
  rewrite <- !app_assoc in E. cbn [app] in E. injection E as <- E.
  assert (sb = sb' /\ (Z.testbit ind 1 = true -> Z.testbit ind 0 = false /\ f_target f = true) /\
    bd ++ bt ++ di :: bnd ++ bni ++ bna ++ bcks ++ body ++ rest = bd' ++ bt' ++ di' :: bnd' ++ bni' ++ bna' ++ bck' ++ y) as (<- & TF & E1).
  { unfold segment_fields in SF.
    inversion SG as [Z0 Z1|b1 b2 len pos s0 Z0 Z1 V1 V2 SL|b1 b2 len pos s0 Z0 Z1 FT V1 V2 SL]; subst; rewrite Z0, Z1 in SF; cbn [orb] in SF.
    - subst sb'. split; [reflexivity|]. split; [congruence|exact E].
    - destruct SF as (c1 & l' & c2 & p' & -> & U1 & U2). rewrite <- !app_assoc in E.
      destruct (varint_inj _ _ _ _ _ _ V1 U1 E) as (-> & -> & E').
      destruct (varint_inj _ _ _ _ _ _ V2 U2 E') as (-> & -> & E2).
      split; [reflexivity|]. split; [congruence|exact E2].
    - destruct SF as (c1 & l' & c2 & p' & -> & U1 & U2). rewrite <- !app_assoc in E.
      destruct (varint_inj _ _ _ _ _ _ V1 U1 E) as (-> & -> & E').
      destruct (varint_inj _ _ _ _ _ _ V2 U2 E') as (-> & -> & E2).
      split; [reflexivity|]. split; [auto|exact E2]. }
  clear E. destruct (varint_inj _ _ _ _ _ _ VD VD' E1) as (<- & <- & E). clear E1.
  destruct (varint_inj _ _ _ _ _ _ VT VT' E) as (<- & TL & E1). clear E. injection E1 as <- E1.
  destruct (varint_inj _ _ _ _ _ _ VND VND' E1) as (<- & <- & E). clear E1.
  destruct (varint_inj _ _ _ _ _ _ VNI VNI' E) as (<- & <- & E1). clear E.
  destruct (varint_inj _ _ _ _ _ _ VNA VNA' E1) as (<- & <- & E). clear E1.
  assert (bcks = bck' /\ body ++ rest = y /\ (forall x, c = Some x -> x = adler_sum 0 T)) as (<- & <- & CK).
  { unfold checksum_field in CF. unfold checksum_bytes in CB. destruct (f_ext f && Z.testbit ind 2).
    - destruct CB as (x & -> & V). destruct (varint_inj _ _ _ _ _ _ CF V E) as (-> & -> & E1).
      split; [reflexivity|]. split; [exact E1|]. intros ? Q. injection Q as <-. reflexivity.
    - destruct CB as [-> ->]. subst. cbn in E. split; [reflexivity|]. split; [exact E|discriminate]. }
  split; [exact TL|]. split; [exact DL|]. split; [exact CK|]. split; [exact TF|].
  exists seg, items, hist, body. auto.
Qed.
