(** Calls of a decoder in any order. *)

From Verif Require Import Base ListFacts Spec Varint AddrCache CodeTable CodeTableFacts DecodeTable HeaderParser Adler Decoder
  CopyFacts BodyFacts BodyExt WindowExt WindowHeader WindowStep Refine Totals Abstract FileHeader Chunk Sim Stream Session Calls Reuse.
From Coq Require Import ZifyBool ZifyNat.

(** The calls of VCDiffStreamingDecoder (google/vcdecoder.h 53-160). *)
Inductive dop :=
| OStart (dict : list Z) | OChunk (data : list Z) | OFinish
| OMaxFile (n : Z) | OMaxWindow (n : Z) | OAllow (b : bool).

(** The model under a call (vcdecoder.cc 378-392, 481-488, 651-664, 880-944): new state, return
    value (true for void), appended output. *)
Definition dop_run (d : dec) (o : dop) : option (dec * (bool * list Z)) :=
  match o with
  | OStart dict => Some (start_decoding d dict, (true, []))
  | OChunk x => match decode_chunk d x with CRet d' ok out => Some (d', (ok, out)) | _ => None end
  | OFinish => let '(d', ok) := finish_decoding d in Some (d', (ok, []))
  | OMaxFile n => let '(d', ok) := set_maximum_target_file_size d n in Some (d', (ok, []))
  | OMaxWindow n => let '(d', ok) := set_maximum_target_window_size d n in Some (d', (ok, []))
  | OAllow b => Some (set_allow_vcd_target d b, (true, []))
  end.

(** Results of calls one after the other (google/vcdecoder.h 53-160) up to the first undefined one. *)
Fixpoint dops_run (d : dec) (l : list dop) : list (bool * list Z) * bool :=
  match l with
  | [] => ([], true)
  | o :: tl =>
      match dop_run d o with
      | None => ([], false)
      | Some (d', r) => let '(rs, defined) := dops_run d' tl in (r :: rs, defined)
      end
  end.

(** ** What a caller expects

    Settings, and the session that is open: the settings with which it began, its
    dictionary, and its own calls. *)
Record dsettings := { ds_file : Z; ds_window : Z; ds_allow : bool }.
Inductive scall := SChunk (x : list Z) | SFile (n : Z) | SWindow (n : Z).
Inductive session := Closed | Open (s : dsettings) (dict : list Z) (calls : list scall).

Definition fresh (s : dsettings) : dec :=
  Dec (set_limits new_core (ds_file s) (ds_window s) (ds_allow s) kUnlimitedBytes) None.

(** A session on a decoder that was never used before. *)
Definition scall_run (d : dec) (c : scall) : dec :=
  match c with
  | SChunk x => match decode_chunk d x with CRet d' _ _ => d' | _ => d end
  | SFile n => fst (set_maximum_target_file_size d n)
  | SWindow n => fst (set_maximum_target_window_size d n)
  end.
Definition replay (s : dsettings) (dict : list Z) (calls : list scall) : dec :=
  fold_left scall_run calls (start_decoding (fresh s) dict).

Definition expected (s : dsettings) (e : session) (o : dop) : option (dsettings * session * (bool * list Z)) :=
  match o, e with
  | OStart dict, Closed => Some (s, Open s dict [], (true, []))
  | OStart _, Open _ _ _ => Some (s, e, (true, []))
  | OChunk x, Closed => Some (s, Closed, (false, []))
  | OChunk x, Open s0 dict calls =>
      match decode_chunk (replay s0 dict calls) x with
      | CRet _ true out => Some (s, Open s0 dict (calls ++ [SChunk x]), (true, out))
      | CRet _ false out => Some (s, Closed, (false, out))
      | _ => None
      end
  | OFinish, Closed => Some (s, Closed, (false, []))
  | OFinish, Open s0 dict calls => Some (s, Closed, (snd (finish_decoding (replay s0 dict calls)), []))
  | OMaxFile n, _ =>
      Some ({| ds_file := n; ds_window := ds_window s; ds_allow := ds_allow s |},
            match e with Closed => Closed | Open s0 dict calls => Open s0 dict (calls ++ [SFile n]) end, (true, []))
  | OMaxWindow n, _ =>
      if 2147483647 <? n then Some (s, e, (false, []))
      else Some ({| ds_file := ds_file s; ds_window := n; ds_allow := ds_allow s |},
            match e with Closed => Closed | Open s0 dict calls => Open s0 dict (calls ++ [SWindow n]) end, (true, []))
  | OAllow b, Closed => Some ({| ds_file := ds_file s; ds_window := ds_window s; ds_allow := b |}, Closed, (true, []))
  | OAllow _, Open _ _ _ => Some (s, e, (true, []))
  end.

(** The data given in a session. *)
Definition scall_data (c : scall) : list Z := match c with SChunk x => x | _ => [] end.
Definition given (e : session) (o : dop) : list Z :=
  match e, o with Open _ _ calls, OChunk x => concat (map scall_data calls) ++ x | _, _ => [] end.

(** Expected results, and what had been given in its session at each call. *)
Fixpoint expect (s : dsettings) (e : session) (l : list dop) : list (bool * list Z) * bool * list (list Z) :=
  match l with
  | [] => ([], true, [])
  | o :: tl =>
      match expected s e o with
      | None => ([], false, [given e o])
      | Some (s', e', r) => let '(rs, defined, g) := expect s' e' tl in (r :: rs, defined, given e o :: g)
      end
  end.

(** ** Proof *)

Definition cfg (c : core) := (d_max_file c, d_max_window c, d_allow c, d_table c).

Lemma decode_window_cfg : forall c data, match decode_window c data with
  | XOk (c', _) | XEod (c', _) => cfg c' = cfg c /\ d_sizes c' = d_sizes c /\ d_started c' = d_started c | _ => True end.
Proof.
  intros c data. unfold decode_window.
  assert (forall tot w st av af, match finish_window c tot w st av af with XOk (c', _) | XEod (c', _) => cfg c' = cfg c /\ d_sizes c' = d_sizes c /\ d_started c' = d_started c | _ => True end) as FW.
  { intros. unfold finish_window. destruct (decode_body _ _ _ _ _); auto; cbv zeta; destruct (_ && _); auto. }
  destruct (d_win c); [apply FW|]. destruct (read_header c data) as [[[[w st] af] l]| | |]; auto. apply FW.
Qed.

Lemma window_loop_cfg : forall f c data out, match fst (window_loop f c data out) with
  | XOk (c', _) | XEod (c', _) => cfg c' = cfg c /\ d_sizes c' = d_sizes c /\ d_started c' = d_started c | _ => True end.
Proof.
  induction f as [|f IH]; intros c [|b data] out; try exact Logic.I; try (cbn; auto; fail). cbn [window_loop].
  pose proof (decode_window_cfg c (b :: data)) as D.
  destruct (decode_window c (b :: data)) as [[c' r]|[c' r]| | |]; auto.
  destruct (reached_planned c'); [exact D|]. destruct D as (D1 & D2 & D3). destruct (d_allow c').
  - specialize (IH c' r out). rewrite <- D1, <- D2, <- D3. destruct (fst (window_loop f c' r out)) as [[]|[]| | |]; auto.
  - unfold flush_target. specialize (IH (set_target_out c' [] 0 0) r (out ++ zdrop (d_out_pos c') (d_target c'))).
    rewrite <- D1, <- D2, <- D3. destruct (fst (window_loop f _ r _)) as [[]|[]| | |]; auto.
Qed.

Lemma chunk_windows_cfg : forall c data d' ok o, chunk_windows c data = CRet d' ok o ->
  exists c', d' = Dec c' None /\ cfg c' = cfg c /\ d_started c' = ok && d_started c /\ (ok = true -> d_sizes c' = d_sizes c).
Proof.
  intros c data d' ok o H. unfold chunk_windows in H. pose proof (window_loop_cfg (S (length data)) c data []) as T.
  destruct (window_loop (S (length data)) c data []) as [[[c' r]|[c' r]| | |] out]; try discriminate; cbn in *; injection H as <- <- <-; eexists; (split; [reflexivity|]).
  - split; [apply T|]. split; [apply T|]. intros _. apply T.
  - split; [apply T|]. split; [apply T|]. intros _. apply T.
  - split; [reflexivity|]. split; [reflexivity|]. discriminate.
Qed.

(** A chunk in a session without code table. *)
Lemma plain_chunk : forall c x d' ok o, (d_sizes c = None -> no_code_table (d_unparsed c ++ x)) ->
  decode_chunk (Dec c None) x = CRet d' ok o ->
  exists c', d' = Dec c' None /\ cfg c' = cfg c /\ d_started c' = ok && d_started c /\
    (ok = true -> d_sizes c' = None -> d_sizes c = None /\ d_unparsed c' = d_unparsed c ++ x).
Proof.
  intros c x d' ok o P H. unfold decode_chunk in H. destruct (chunk_fuel_pos (Dec c None) x) as [f E]. rewrite E in H.
  cbn [decode_chunk_fuel] in H. destruct (d_started c) eqn:ST; cbn [negb] in H.
  2:{ cbn in H. injection H as <- <- <-. eexists. split; [reflexivity|]. split; [reflexivity|]. split; [reflexivity|discriminate]. }
  assert (forall c1 data, (d_sizes c1 <> None) -> cfg c1 = cfg c -> d_started c1 = true -> chunk_windows c1 data = CRet d' ok o ->
    exists c', d' = Dec c' None /\ cfg c' = cfg c /\ d_started c' = ok && true /\ (ok = true -> d_sizes c' = None -> d_sizes c = None /\ d_unparsed c' = d_unparsed c ++ x)) as CW.
  { intros c1 data N1 F1 S1 E1. apply chunk_windows_cfg in E1 as (c' & -> & A & B & Z0). exists c'. split; [reflexivity|]. split; [congruence|].
    split; [rewrite B, S1; reflexivity|]. intros OK N. rewrite (Z0 OK) in N. contradiction. }
  unfold read_file_header in H. destruct (d_sizes c) as [sz|] eqn:S.
  { apply (CW c (d_unparsed c ++ x)); auto. congruence. }
  specialize (P eq_refl).
  destruct (check_magic (d_unparsed c ++ x)) as [[]| | |] eqn:C; cbn [bind] in H; try discriminate H.
  - destruct (check_magic_inv _ C) as (v & ind & tl' & EQ & V). rewrite EQ in H.
    change (nth 3 (hd5 v ind tl') 0) with v in H. change (nth 4 (hd5 v ind tl') 0) with ind in H.
    destruct (Z.testbit ind 0).
    { cbn in H. injection H as <- <- <-. eexists. split; [reflexivity|]. split; [reflexivity|]. split; [reflexivity|discriminate]. }
    rewrite (P v ind tl' EQ) in H. eapply CW; [| | |exact H]; [discriminate|reflexivity|exact ST].
  - unfold chunk_done, append_new_output in H. cbn [set_unparsed d_out_pos d_target] in H. injection H as <- <- <-.
    eexists. split; [reflexivity|]. split; [reflexivity|]. split; [exact ST|]. intros _ _. split; reflexivity.
  - cbn in H. injection H as <- <- <-. eexists. split; [reflexivity|]. split; [reflexivity|]. split; [reflexivity|discriminate].
Qed.

Definition stands (s : dsettings) (c : core) : Prop := cfg c = (ds_file s, ds_window s, ds_allow s, default_table).

(** What the state of the decoder has to do with the open session. *)
Definition follows (s : dsettings) (e : session) (d : dec) : Prop :=
  match e with
  | Closed => let '(Dec c _) := d in stands s c /\ d_started c = false
  | Open s0 dict calls => exists c, d = Dec c None /\ stands s c /\ d_started c = true /\
      (d_sizes c = None -> d_unparsed c = concat (map scall_data calls)) /\ same_but_string d (replay s0 dict calls)
  end.

Lemma replay_snoc : forall s dict calls x, replay s dict (calls ++ [x]) = scall_run (replay s dict calls) x.
Proof. intros. unfold replay. rewrite fold_left_app. reflexivity. Qed.

Lemma data_snoc : forall calls x, concat (map scall_data (calls ++ [x])) = concat (map scall_data calls) ++ scall_data x.
Proof. intros. rewrite map_app, concat_app. cbn. rewrite app_nil_r. reflexivity. Qed.

Lemma sbs_max_file : forall d d' n, same_but_string d d' -> same_but_string (fst (set_maximum_target_file_size d n)) (fst (set_maximum_target_file_size d' n)).
Proof. intros d d' n [e|x c]; [constructor|]. cbn [set_maximum_target_file_size fst]. match goal with |- same_but_string (Dec ?y None) _ => apply (sbs_string x y) end. Qed.

Lemma sbs_max_window : forall d d' n, same_but_string d d' -> same_but_string (fst (set_maximum_target_window_size d n)) (fst (set_maximum_target_window_size d' n)).
Proof.
  intros d d' n [e|x c]; [constructor|]. cbn [set_maximum_target_window_size]. destruct (kTargetSizeLimit <? n); cbn [fst]; [constructor|].
  match goal with |- same_but_string (Dec ?y None) _ => apply (sbs_string x y) end.
Qed.

Lemma follows_step : forall s e d o, follows s e d -> no_code_table (given e o) ->
  match dop_run d o, expected s e o with
  | Some (d', r), Some (s', e', r') => r = r' /\ follows s' e' d'
  | None, None => True
  | _, _ => False
  end.
Proof.
  intros s e d o FO NC. destruct o as [dict|x| |n|n|b]; cbn [dop_run expected].
  - destruct e as [|s0 dict0 calls].
    + destruct d as [c nd]. destruct FO as (ST & SD). cbn [start_decoding]. rewrite SD. split; [reflexivity|].
      exists (start_core c dict). split; [reflexivity|]. split; [exact ST|]. split; [reflexivity|]. split; [reflexivity|].
      unfold stands, cfg in ST. injection ST as E1 E2 E3 E4.
      unfold replay. cbn [fold_left]. assert (start_decoding (fresh s) dict = Dec (set_string [] (start_core c dict)) None) as ->; [|constructor].
      unfold fresh, start_decoding, set_string, set_file, start_core. cbn. rewrite E1, E2, E3, E4. reflexivity.
    + destruct FO as (c & -> & F). cbn [start_decoding]. destruct F as (F1 & F2 & F3). rewrite F2. split; [reflexivity|]. exists c. auto.
  - destruct e as [|s0 dict0 calls].
    + destruct d as [c nd]. destruct FO as (ST & SD). unfold decode_chunk. destruct (chunk_fuel_pos (Dec c nd) x) as [f ->].
      cbn [decode_chunk_fuel]. rewrite SD. cbn. split; [reflexivity|]. split; [exact ST|reflexivity].
    + destruct FO as (c & -> & ST & SD & UN & SB). cbn [given] in NC.
      pose proof (decode_chunk_string _ _ x SB) as SR.
      pose proof (plain_chunk c x) as PC.
      destruct (decode_chunk (Dec c None) x) as [d' ok out| |] eqn:E1.
      * destruct (decode_chunk (replay s0 dict0 calls) x) as [d2 ok2 out2| |] eqn:E2; try (exfalso; discriminate SR).
        destruct SR as (SB' & -> & ->).
        destruct (PC d' ok out) as (c' & -> & CF & S' & UP); [|reflexivity|].
        { intros N. rewrite (UN N). exact NC. }
        assert (stands s c') as ST' by (unfold stands in *; congruence).
        destruct ok.
        -- split; [reflexivity|]. exists c'. split; [reflexivity|]. split; [exact ST'|]. split; [rewrite S', SD; reflexivity|].
           split.
           ++ intros N. destruct (UP eq_refl N) as (N1 & ->). rewrite (UN N1), data_snoc. reflexivity.
           ++ rewrite replay_snoc. cbn [scall_run]. rewrite E2. exact SB'.
        -- split; [reflexivity|]. split; [exact ST'|]. rewrite S'. reflexivity.
      * cbn in SR. destruct (decode_chunk (replay s0 dict0 calls) x); [discriminate SR|exact Logic.I|exact Logic.I].
      * cbn in SR. destruct (decode_chunk (replay s0 dict0 calls) x); [discriminate SR|exact Logic.I|exact Logic.I].
  - destruct e as [|s0 dict0 calls].
    + destruct d as [c nd]. destruct FO as (ST & SD). cbn [finish_decoding]. rewrite SD. split; [reflexivity|]. split; [exact ST|reflexivity].
    + destruct FO as (c & -> & ST & SD & UN & SB). rewrite (finish_string _ _ SB). cbn [finish_decoding snd].
      split; [reflexivity|]. split; [exact ST|reflexivity].
  - destruct e as [|s0 dict0 calls].
    + destruct d as [c nd]. destruct FO as (ST & SD). unfold stands, cfg in ST. injection ST as E1 E2 E3 E4.
      split; [reflexivity|]. split; [unfold stands, cfg; cbn; congruence|exact SD].
    + destruct FO as (c & -> & ST & SD & UN & SB). unfold stands, cfg in ST. injection ST as E1 E2 E3 E4.
      split; [reflexivity|]. cbn [set_maximum_target_file_size]. eexists. split; [reflexivity|].
      split; [unfold stands, cfg; cbn; congruence|]. split; [exact SD|]. split; [rewrite data_snoc; cbn [scall_data]; rewrite app_nil_r; exact UN|].
      rewrite replay_snoc. exact (sbs_max_file _ _ n SB).
  - change 2147483647 with kTargetSizeLimit. pose proof (sbs_max_window d) as SW. destruct e as [|s0 dict0 calls].
    + destruct d as [c nd]. destruct FO as (ST & SD). unfold stands, cfg in ST. injection ST as E1 E2 E3 E4.
      cbn [set_maximum_target_window_size]. destruct (kTargetSizeLimit <? n); (split; [reflexivity|]; split; [unfold stands, cfg; cbn; congruence|exact SD]).
    + destruct FO as (c & -> & ST & SD & UN & SB). pose proof ST as ST0. unfold stands, cfg in ST. injection ST as E1 E2 E3 E4.
      specialize (SW _ n SB). cbn [set_maximum_target_window_size] in *. destruct (kTargetSizeLimit <? n) eqn:L.
      * split; [reflexivity|]. exists c. auto.
      * split; [reflexivity|]. eexists. split; [reflexivity|].
        split; [unfold stands, cfg; cbn; congruence|]. split; [exact SD|]. split; [rewrite data_snoc; cbn [scall_data]; rewrite app_nil_r; exact UN|].
        rewrite replay_snoc. exact SW.
  - destruct e as [|s0 dict0 calls].
    + destruct d as [c nd]. destruct FO as (ST & SD). unfold stands, cfg in ST. injection ST as E1 E2 E3 E4.
      cbn [set_allow_vcd_target]. rewrite SD. split; [reflexivity|]. split; [unfold stands, cfg; cbn; congruence|exact SD].
    + destruct FO as (c & -> & ST & SD & UN & SB). cbn [set_allow_vcd_target]. rewrite SD. split; [reflexivity|]. exists c. auto.
Qed.

Lemma follows_run : forall l s e d rs defined g, follows s e d -> expect s e l = (rs, defined, g) -> Forall no_code_table g ->
  dops_run d l = (rs, defined).
Proof.
  induction l as [|o l IH]; intros s e d rs defined g FO E F; cbn [expect dops_run] in *; [congruence|].
  pose proof (follows_step s e d o FO) as ST.
  destruct (expected s e o) as [[[s' e'] r]|].
  - destruct (expect s' e' l) as [[rs1 df1] g1] eqn:E1. injection E as <- <- <-. inversion F as [|? ? N F1]; subst. specialize (ST N).
    destruct (dop_run d o) as [[d' r']|]; [|contradiction]. destruct ST as (-> & FO'). rewrite (IH _ _ _ _ _ _ FO' E1 F1). reflexivity.
  - injection E as <- <- <-. inversion F as [|? ? N F1]; subst. specialize (ST N). destruct (dop_run d o) as [[d' r']|]; [contradiction|reflexivity].
Qed.

(** ** No call is undefined, whatever the limits are set to *)

Lemma window_loop_safe : forall fuel ns ss c data out, core_ok ns ss c -> bytes_ok data -> (length data + mid c <= fuel)%nat ->
  match fst (window_loop fuel c data out) with
  | XOk (c', u) | XEod (c', u) => core_ok ns ss c' /\ bytes_ok u
  | XErr => True
  | XUB => ns = 254 /\ ss = 0
  | XFuel => False
  end.
Proof.
  induction fuel as [|fuel IH]; intros ns ss c data out CO BD LE.
  { destruct data as [|b data]; [|cbn in LE; lia]. cbn. auto. }
  destruct data as [|b data0]; [cbn; auto|].
  cbn [window_loop]. set (data := b :: data0) in *. clearbody data. clear b data0.
  pose proof (decode_window_step c ns ss data [] CO BD ltac:(constructor)) as STP.
  destruct (decode_window c data) as [[c' rest]|[c' rest]| | |] eqn:DW; cbn [fst]; auto.
  - destruct STP as (CO' & CS & WN & BR & (used & EU & UN) & _). destruct (reached_planned c'); [cbn; auto|].
    assert (length rest + mid c' <= fuel)%nat as LE'.
    { unfold mid in *. rewrite WN. destruct (d_win c) eqn:DK.
      - rewrite EU, app_length in LE. lia.
      - specialize (UN eq_refl). destruct used; [congruence|]. rewrite EU, app_length in LE. cbn in LE. lia. }
    destruct (d_allow c'); [apply IH; auto|]. unfold flush_target. apply IH; auto. apply core_ok_flush; auto.
  - tauto.
  - tauto.
Qed.

Definition sound_core (c : core) : Prop :=
  bytes_ok (d_dict c) /\ bytes_ok (d_unparsed c) /\
  ((d_sizes c = None /\ d_target c = [] /\ d_win c = None /\ d_start c = 0) \/ core_ok 4 3 c).

Lemma chunk_windows_safe : forall c data, core_ok 4 3 c -> bytes_ok data ->
  exists d' ok o, chunk_windows c data = CRet d' ok o /\ (ok = true -> exists c', d' = Dec c' None /\ sound_core c').
Proof.
  intros c data CO BD. unfold chunk_windows.
  pose proof (window_loop_safe (S (length data)) 4 3 c data [] CO BD ltac:(unfold mid; destruct (d_win c); lia)) as W.
  destruct (window_loop (S (length data)) c data []) as [[[c' r]|[c' r]| | |] out]; cbn [fst] in W; try lia.
  - destruct W as [CO' BR]. eexists _, true, _. split; [reflexivity|]. intros _. eexists. split; [reflexivity|].
    split; [exact (co_dict _ _ _ CO')|]. split; [exact BR|]. right. destruct CO'; constructor; auto.
  - destruct W as [CO' BR]. eexists _, true, _. split; [reflexivity|]. intros _. eexists. split; [reflexivity|].
    split; [exact (co_dict _ _ _ CO')|]. split; [exact BR|]. right. destruct CO'; constructor; auto.
  - eexists _, false, _. split; [reflexivity|]. discriminate.
Qed.

Lemma plain_chunk_safe : forall c x, d_table c = default_table -> sound_core c -> bytes_ok x -> d_started c = true ->
  (d_sizes c = None -> no_code_table (d_unparsed c ++ x)) ->
  exists d' ok o, decode_chunk (Dec c None) x = CRet d' ok o /\ (ok = true -> exists c', d' = Dec c' None /\ sound_core c').
Proof.
  intros c x T (BD & BU & SO) BX ST P. unfold decode_chunk. destruct (chunk_fuel_pos (Dec c None) x) as [f ->].
  assert (bytes_ok (d_unparsed c ++ x)) as BUX by (apply bytes_ok_app; auto).
  cbn [decode_chunk_fuel]. rewrite ST. cbn [negb]. unfold read_file_header. destruct SO as [(S & TG & WN & SS)|CO].
  2:{ rewrite (co_sizes _ _ _ CO). apply chunk_windows_safe; auto. }
  rewrite S. specialize (P S).
  destruct (check_magic (d_unparsed c ++ x)) as [[]| | |] eqn:C; cbn [bind].
  - destruct (check_magic_inv _ C) as (v & ind & tl' & EQ & V). rewrite EQ.
    change (nth 3 (hd5 v ind tl') 0) with v. change (nth 4 (hd5 v ind tl') 0) with ind.
    destruct (Z.testbit ind 0). { eexists _, false, _. split; [reflexivity|]. discriminate. }
    rewrite (P v ind tl' EQ). apply chunk_windows_safe; [|rewrite EQ in BUX; do 5 (apply Forall_inv_tail in BUX); exact BUX].
    constructor; cbn; auto; try lia.
    + rewrite T. apply default_table_ok.
    + rewrite TG. constructor.
    + rewrite WN, TG. exact SS.
    + rewrite WN. discriminate.
  - unfold chunk_done, append_new_output. eexists _, true, _. split; [reflexivity|]. intros _. eexists. split; [reflexivity|].
    split; [exact BD|]. split; [exact BUX|]. left. auto.
  - eexists _, false, _. split; [reflexivity|]. discriminate.
  - unfold check_magic in C. exfalso. destruct (d_unparsed c ++ x) as [|? [|? [|? [|? [|? ?]]]]]; repeat (match type of C with context [if ?b then _ else _] => destruct b end); discriminate C.
Qed.
