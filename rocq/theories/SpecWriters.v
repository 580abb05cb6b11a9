(** Specification: the calls of a code table writer that the encoder is to make.  Of
    the model files only the types of the calls, of the writers and of the flags are
    used. *)

From Verif Require Import Base Spec SpecEncode EncodeTable Encoder Writers.

(** ** Calls on a writer by themselves *)

(** One call: the new state, the reply (true for the functions without one) and the
    bytes that it appends to the output. *)
Definition one_call {S} (k : writer_class S) (s : S) (c : wcall) : option (S * bool * list Z) :=
  let reply x := match x with Some (s', r) => Some (s', r, []) | None => None end in
  let bytes x := match x with Some (s', o) => Some (s', true, o) | None => None end in
  let void x := match x with Some s' => Some (s', true, []) | None => None end in
  match c with
  | WInit n => reply (k_init k s n)
  | WVerifyDictionary d => reply (k_verify_dictionary k s d)
  | WHeader f => bytes (k_header k s f)
  | WVerifyChunk d => reply (k_verify_chunk k s d)
  | WChecksum x => void (k_checksum k s x)
  | WInstruction i => void (k_call k s i)
  | WOutput => bytes (k_output k s)
  | WFinish => bytes (k_finish k s)
  end.
(** [made k s calls s' ok out]: the calls are made one after the other, none after a
    call with the reply false; [ok]: no reply was false. *)
Inductive made {S} (k : writer_class S) : S -> list wcall -> S -> bool -> list Z -> Prop :=
| made_none : forall s, made k s [] s true []
| made_false : forall s c s' o, one_call k s c = Some (s', false, o) -> made k s [c] s' false o
| made_true : forall s c s1 o1 l s2 ok o2,
    one_call k s c = Some (s1, true, o1) -> made k s1 l s2 ok o2 -> made k s (c :: l) s2 ok (o1 ++ o2).

(** ** The calls to be made

    [calls_for dict fl look on c ok calls]: for the call [c] of the encoder, which
    returns [ok]; [on]: encoding was started and not finished. *)
Inductive calls_for (dict : list Z) (fl : flags) (look : bool) : bool -> ecall -> bool -> list wcall -> Prop :=
| for_start : forall on,
    calls_for dict fl look on EStart true [WInit (zlen dict); WVerifyDictionary dict; WHeader fl]
| for_start_init : forall on,
    calls_for dict fl look on EStart false [WInit (zlen dict)]
| for_start_dictionary : forall on,
    calls_for dict fl look on EStart false [WInit (zlen dict); WVerifyDictionary dict]
| for_chunk_off : forall data,
    calls_for dict fl look false (EChunk data) false []
| for_chunk_verify : forall data,
    calls_for dict fl look true (EChunk data) false [WVerifyChunk data]
| for_chunk_empty :
    calls_for dict fl look true (EChunk []) true
      (WVerifyChunk [] :: (if fl_checksum fl then [WChecksum (adler_sum 0 [])] else []))
| for_chunk : forall data l,
    data <> [] -> genuine_plan look dict [] false l data ->
    calls_for dict fl look true (EChunk data) true
      (WVerifyChunk data :: (if fl_checksum fl then [WChecksum (adler_sum 0 data)] else []) ++ map WInstruction l ++ [WOutput])
| for_finish_off :
    calls_for dict fl look false EFinish false []
| for_finish :
    calls_for dict fl look true EFinish true [WFinish].

(** Whether encoding is started after the call [c] that returned [ok]. *)
Definition now_on (on : bool) (c : ecall) (ok : bool) : bool :=
  match c, ok with EStart, true => true | EFinish, true => false | _, _ => on end.

(** The same for a sequence of calls of the encoder. *)
Inductive calls_for_all (dict : list Z) (fl : flags) (look : bool) : bool -> list ecall -> list (bool * list Z * list wcall) -> Prop :=
| for_none : forall on, calls_for_all dict fl look on [] []
| for_next : forall on c ok out calls l rs,
    calls_for dict fl look on c ok calls ->
    calls_for_all dict fl look (now_on on c ok) l rs ->
    calls_for_all dict fl look on (c :: l) ((ok, out, calls) :: rs).

(** A writer that has defined behaviour whatever is called. *)
Definition never_undefined {S} (k : writer_class S) : Prop := forall s c, one_call k s c <> None.

(** codetablewriter_interface.h: the calls follow the pattern
    (Add|Copy|Run)* Output, repeated; the other calls do not matter. *)
Fixpoint pattern (open : bool) (l : list wcall) : bool :=
  match l with
  | [] => negb open
  | WInstruction _ :: tl => pattern true tl
  | WOutput :: tl => pattern false tl
  | _ :: tl => negb open && pattern false tl
  end.
