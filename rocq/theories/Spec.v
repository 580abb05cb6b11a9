(** What VCDIFF data means, independently of the implementation.
    Sources: RFC 3284 ("RFC" below) and the SDCH extensions documented in
    /repo/src/google/format_extension_flags.h and vcdecoder.cc 355-376.
    No definition of a model file is used here. *)

From Verif Require Import Base.

(** ** Integers (RFC section 2): base 128, most significant digit first, all
    bytes but the last have the top bit set. *)
Definition is_varint (l : list Z) : Prop :=
  exists init last,
    l = init ++ [last] /\ Forall (fun b => 128 <= b < 256) init /\ 0 <= last < 128.
Definition varint_value (l : list Z) : Z :=
  fold_left (fun acc b => acc * 128 + b mod 128) l 0.
Definition varint (l : list Z) (v : Z) : Prop := is_varint l /\ varint_value l = v.

(** ** Address caches (RFC section 5.1)

    [hist] is the list of the addresses of the COPY instructions executed so
    far in the window, most recent first.  No cache array is mentioned: slot
    [i] of the near cache is the most recent address whose ordinal number is
    [i] modulo the cache size; slot [j] of the same cache is the most recent
    address that is [j] modulo 256 times the cache size.  Both are 0 before
    they are first written. *)
Fixpoint near_slot (near_size : Z) (hist : list Z) (i : Z) : Z :=
  match hist with
  | [] => 0
  | a :: older =>
      if zlen older mod near_size =? i then a else near_slot near_size older i
  end.
Fixpoint same_slot (same_size : Z) (hist : list Z) (j : Z) : Z :=
  match hist with
  | [] => 0
  | a :: older =>
      if a mod (same_size * 256) =? j then a else same_slot same_size older j
  end.

(** ** Address encodings (RFC section 5.3)

    [addr_code ns ss hist here mode bytes a]: in mode [mode] the bytes [bytes]
    stand for address [a], when the instruction is at address [here] and the
    caches have sizes [ns] and [ss]. *)
Inductive addr_code (ns ss : Z) (hist : list Z) (here : Z) : Z -> list Z -> Z -> Prop :=
| addr_self : forall p a,
    varint p a -> 0 <= a < here -> addr_code ns ss hist here 0 p a
| addr_here : forall p e a,
    varint p e -> a = here - e -> 0 <= a < here -> addr_code ns ss hist here 1 p a
| addr_near : forall i p e a,
    0 <= i < ns -> varint p e -> a = near_slot ns hist i + e -> 0 <= a < here ->
    addr_code ns ss hist here (2 + i) p a
| addr_same : forall k b a,
    0 <= k < ss -> byte_ok b -> a = same_slot ss hist (k * 256 + b) -> 0 <= a < here ->
    addr_code ns ss hist here (2 + ns + k) [b] a.

(** ** Delta instructions (RFC section 3)

    A window is decoded from a source segment [seg] and the part [T] of the
    target window produced so far; addresses refer to the concatenation of the
    two.  A COPY is defined one byte at a time, so that it may read bytes which
    it has itself produced. *)
Fixpoint copy_bytewise (n : nat) (seg T : list Z) (a : Z) : option (list Z) :=
  match n with
  | O => Some T
  | S n' =>
      match get (seg ++ T) a with
      | None => None
      | Some b => copy_bytewise n' seg (T ++ [b]) (a + 1)
      end
  end.

(** ** Code tables (RFC section 5.4, 5.6)

    One half of a code table entry; size 0 means that the size follows the
    opcode as an integer. *)
Inductive half :=
| HNoop
| HAdd (size : Z)
| HRun (size : Z)
| HCopy (size mode : Z)
| HInvalid.

(** A code table maps each opcode to the two instructions it stands for. *)
Definition code_table := Z -> half * half.

(** The default code table, RFC section 5.6. *)
Definition rfc_table : code_table := fun op =>
  if op =? 0 then (HRun 0, HNoop)
  else if op <=? 18 then (HAdd (op - 1), HNoop)
  else if op <=? 162 then
    let k := (op - 19) mod 16 in
    (HCopy (if k =? 0 then 0 else k + 3) ((op - 19) / 16), HNoop)
  else if op <=? 234 then
    let k := op - 163 in
    (HAdd (1 + (k mod 12) / 3), HCopy (4 + k mod 3) (k / 12))
  else if op <=? 246 then
    let k := op - 235 in
    (HAdd (1 + k mod 4), HCopy 4 (6 + k / 4))
  else (HCopy 4 (op - 247), HAdd 1).

(** RFC section 7: a code table as a string of 1536 bytes. *)
Definition half_of (inst size mode : Z) : half :=
  if inst =? 0 then HNoop
  else if inst =? 1 then HAdd size
  else if inst =? 2 then HRun size
  else if inst =? 3 then HCopy size mode
  else HInvalid.
Definition table_of_string (s : list Z) : code_table := fun op =>
  let at_ k := nth (Z.to_nat (k * 256 + op)) s 0 in
  (half_of (at_ 0) (at_ 2) (at_ 4), half_of (at_ 1) (at_ 3) (at_ 5)).

(** ** The meaning of an encoded instruction

    The bytes that belong to one instruction besides the opcode: its size, if
    not given by the code table; its data; its address. *)
Record piece := { p_size : list Z; p_data : list Z; p_addr : list Z }.
Definition no_piece : piece := {| p_size := []; p_data := []; p_addr := [] |}.

Definition size_code (table_size : Z) (bytes : list Z) (n : Z) : Prop :=
  (0 < table_size /\ bytes = [] /\ n = table_size) \/ (table_size = 0 /\ varint bytes n).

(** State while decoding a window: addresses used so far (most recent first) and
    target bytes produced so far. *)
Definition wstate : Type := list Z * list Z.

(** [half_means ns ss L seg h p s s']: the half entry [h] with the bytes [p]
    leads from state [s] to [s'], in a window of target length [L].  An
    instruction may only start while the target window is incomplete. *)
Inductive half_means (ns ss L : Z) (seg : list Z) : half -> piece -> wstate -> wstate -> Prop :=
| hm_noop : forall s, half_means ns ss L seg HNoop no_piece s s
| hm_add : forall k ps n d hist T,
    zlen T < L -> size_code k ps n -> zlen d = n ->
    half_means ns ss L seg (HAdd k) {| p_size := ps; p_data := d; p_addr := [] |}
               (hist, T) (hist, T ++ d)
| hm_run : forall k ps n b hist T,
    zlen T < L -> size_code k ps n ->
    half_means ns ss L seg (HRun k) {| p_size := ps; p_data := [b]; p_addr := [] |}
               (hist, T) (hist, T ++ zrepeat b n)
| hm_copy : forall k m ps n pa a hist T T',
    zlen T < L -> size_code k ps n ->
    addr_code ns ss hist (zlen seg + zlen T) m pa a ->
    copy_bytewise (Z.to_nat n) seg T a = Some T' ->
    half_means ns ss L seg (HCopy k m) {| p_size := ps; p_data := []; p_addr := pa |}
               (hist, T) (a :: hist, T').

(** An opcode with the bytes of its two instructions. *)
Record item := { i_op : Z; i_first : piece; i_second : piece }.

(** The meaning of a sequence of opcodes.  When [drop] is true, the second
    instruction of the last opcode may be missing altogether if the target
    window is complete without it (this decoder's tolerance, not RFC). *)
Inductive items_mean (drop : bool) (tbl : code_table) (ns ss L : Z) (seg : list Z)
  : list item -> wstate -> wstate -> Prop :=
| im_nil : forall s, items_mean drop tbl ns ss L seg [] s s
| im_cons : forall i l s s1 s2 s3,
    byte_ok (i_op i) -> zlen (snd s) < L ->
    half_means ns ss L seg (fst (tbl (i_op i))) (i_first i) s s1 ->
    half_means ns ss L seg (snd (tbl (i_op i))) (i_second i) s1 s2 ->
    items_mean drop tbl ns ss L seg l s2 s3 ->
    items_mean drop tbl ns ss L seg (i :: l) s s3
| im_drop : forall i s s1,
    drop = true ->
    byte_ok (i_op i) -> zlen (snd s) < L ->
    half_means ns ss L seg (fst (tbl (i_op i))) (i_first i) s s1 ->
    i_second i = no_piece -> zlen (snd s1) = L ->
    items_mean drop tbl ns ss L seg [i] s s1.

(** ** Layout of a window body

    Standard (RFC section 4.3): data section, instruction section (opcodes and
    sizes), address section.  Interleaved (SDCH): each opcode is followed by
    the bytes of its first and then of its second instruction. *)
Definition item_inst (i : item) : list Z := [i_op i] ++ p_size (i_first i) ++ p_size (i_second i).
Definition item_data (i : item) : list Z := p_data (i_first i) ++ p_data (i_second i).
Definition item_addr (i : item) : list Z := p_addr (i_first i) ++ p_addr (i_second i).
Definition piece_bytes (p : piece) : list Z := p_size p ++ p_data p ++ p_addr p.
Definition item_bytes (i : item) : list Z :=
  [i_op i] ++ piece_bytes (i_first i) ++ piece_bytes (i_second i).

(** ** Checksum: the two sums of Adler-32 (RFC 1950), both started from 0 as the
    SDCH implementation does (RFC 1950 starts the first one from 1). *)
Fixpoint byte_sum (l : list Z) : Z :=
  match l with [] => 0 | b :: tl => b + byte_sum tl end.
Fixpoint weighted_sum (l : list Z) : Z :=
  match l with [] => 0 | b :: tl => zlen (b :: tl) * b + weighted_sum tl end.
Definition adler_sum (a0 : Z) (l : list Z) : Z :=
  ((a0 * zlen l + weighted_sum l) mod 65521) * 65536 + (a0 + byte_sum l) mod 65521.

(** ** Windows (RFC sections 4.2, 4.3)

    Which of the decoder's tolerances are granted: [t_drop] as above; [t_slack]:
    an interleaved window may be shorter than it declares. *)
Record tolerance := { t_drop : bool; t_slack : bool }.
Definition strict : tolerance := {| t_drop := false; t_slack := false |}.
Definition tol (slack : bool) : tolerance := {| t_drop := true; t_slack := slack |}.

(** Fixed parameters of a file: version 'S' extensions enabled, code table,
    cache sizes, are VCD_TARGET windows allowed. *)
Record format := {
  f_ext : bool; f_table : code_table; f_near : Z; f_same : Z; f_target : bool
}.

(** The source segment field: [segment f dict prev ind bytes seg]. *)
Inductive segment (f : format) (dict prev : list Z) (ind : Z) : list Z -> list Z -> Prop :=
| seg_none :
    Z.testbit ind 0 = false -> Z.testbit ind 1 = false -> segment f dict prev ind [] []
| seg_dict : forall b1 b2 len pos s,
    Z.testbit ind 0 = true -> Z.testbit ind 1 = false ->
    varint b1 len -> varint b2 pos -> slice dict pos len = Some s ->
    segment f dict prev ind (b1 ++ b2) s
| seg_target : forall b1 b2 len pos s,
    Z.testbit ind 0 = false -> Z.testbit ind 1 = true -> f_target f = true ->
    varint b1 len -> varint b2 pos -> slice prev pos len = Some s ->
    segment f dict prev ind (b1 ++ b2) s.

(** The checksum field. *)
Definition checksum_field (f : format) (ind : Z) (bytes T : list Z) : Prop :=
  if f_ext f && Z.testbit ind 2 then varint bytes (adler_sum 0 T) else bytes = [].

(** The body: [n_data], [n_inst], [n_addr] are the three declared lengths. *)
Definition interleaved (f : format) (n_data n_addr : Z) : Prop :=
  f_ext f = true /\ n_data = 0 /\ n_addr = 0.
Definition layout (t : tolerance) (f : format) (items : list item)
    (n_data n_inst n_addr : Z) (body : list Z) : Prop :=
  (interleaved f n_data n_addr /\ body = concat (map item_bytes items) /\
   (n_inst = zlen body \/ (t_slack t = true /\ zlen body <= n_inst)))
  \/
  (~ interleaved f n_data n_addr /\
   n_data = zlen (concat (map item_data items)) /\
   n_inst = zlen (concat (map item_inst items)) /\
   n_addr = zlen (concat (map item_addr items)) /\
   body = concat (map item_data items) ++ concat (map item_inst items)
          ++ concat (map item_addr items)).

(** [window t f dict prev bytes T]: [bytes] is a window that yields the target
    data [T], after [prev] has been produced by the windows before it.  The
    length of the delta encoding counts everything after that field. *)
Inductive window (t : tolerance) (f : format) (dict prev : list Z) : list Z -> list Z -> Prop :=
| window_intro : forall ind seg_bytes seg b_delta delta_len b_target di b_nd n_data b_ni n_inst
                        b_na n_addr b_cks items body hist T,
    byte_ok ind -> segment f dict prev ind seg_bytes seg ->
    varint b_delta delta_len ->
    varint b_target (zlen T) ->
    byte_ok di -> Z.land di 7 = 0 ->
    varint b_nd n_data -> varint b_ni n_inst -> varint b_na n_addr ->
    checksum_field f ind b_cks T ->
    layout t f items n_data n_inst n_addr body ->
    delta_len = zlen (b_target ++ [di] ++ b_nd ++ b_ni ++ b_na ++ b_cks) + n_data + n_inst + n_addr ->
    items_mean (t_drop t) (f_table f) (f_near f) (f_same f) (zlen T) seg items ([], []) (hist, T) ->
    window t f dict prev
      ([ind] ++ seg_bytes ++ b_delta ++ b_target ++ [di] ++ b_nd ++ b_ni ++ b_na ++ b_cks ++ body) T.

(** A sequence of windows: [windows t tl f dict ok prev bytes out] says that
    [bytes] are windows which extend the target data [prev] to [out].  [tl] are
    the tolerances granted to the last window, [t] those for the others.
    [ok prev T] is a further condition on each window, for limits. *)
Inductive windows (t tl : tolerance) (f : format) (dict : list Z) (ok : list Z -> list Z -> Prop)
  : list Z -> list Z -> list Z -> Prop :=
| ws_nil : forall prev, windows t tl f dict ok prev [] prev
| ws_cons : forall prev w T rest out,
    window (match rest with [] => tl | _ => t end) f dict prev w T -> ok prev T ->
    windows t tl f dict ok (prev ++ T) rest out ->
    windows t tl f dict ok prev (w ++ rest) out.

(** Limits: on the size of one target window and of the whole target. *)
Definition within (max_window max_file : Z) (prev T : list Z) : Prop :=
  zlen T <= max_window /\ zlen prev + zlen T <= max_file.

(** ** Code tables given as strings

    RFC section 7: types of the first and second instructions, sizes, modes. *)
Definition half_type (h : half) : Z :=
  match h with HNoop => 0 | HAdd _ => 1 | HRun _ => 2 | HCopy _ _ => 3 | HInvalid => 255 end.
Definition half_size (h : half) : Z :=
  match h with HAdd s => s | HRun s => s | HCopy s _ => s | _ => 0 end.
Definition half_mode (h : half) : Z := match h with HCopy _ m => m | _ => 0 end.
Definition all_bytes : list Z := map Z.of_nat (seq 0 256).
Definition string_of_table (tbl : code_table) : list Z :=
  let column f := map (fun op => f (tbl op)) all_bytes in
  column (fun e => half_type (fst e)) ++ column (fun e => half_type (snd e)) ++
  column (fun e => half_size (fst e)) ++ column (fun e => half_size (snd e)) ++
  column (fun e => half_mode (fst e)) ++ column (fun e => half_mode (snd e)).

(** A string that this implementation accepts as a code table for address modes
    0 ... [max_mode]: every entry is meaningful, and every instruction with
    explicit size has an opcode of its own. *)
Definition half_usable (max_mode inst size mode : Z) : Prop :=
  (inst = 0 /\ size = 0 /\ mode = 0) \/
  ((inst = 1 \/ inst = 2) /\ mode = 0) \/
  (inst = 3 /\ mode <= max_mode).
Definition usable_table (max_mode : Z) (s : list Z) : Prop :=
  let at_ k op := nth (Z.to_nat (k * 256 + op)) s 0 in
  (forall op, byte_ok op ->
     half_usable max_mode (at_ 0 op) (at_ 2 op) (at_ 4 op) /\
     half_usable max_mode (at_ 1 op) (at_ 3 op) (at_ 5 op)) /\
  (forall h, h = HAdd 0 \/ h = HRun 0 \/ (exists m, 0 <= m <= max_mode /\ h = HCopy 0 m) ->
     exists op, byte_ok op /\ table_of_string s op = (h, HNoop)).

(** ** Files (RFC section 4.1)

    [head t tl bytes version tbl ns ss]: the part of a file before its windows.
    With a custom code table (RFC section 7, but without the field "length of
    code table data" and with the cache sizes as integers) this part contains a
    whole file, which extends until it has produced 1536 bytes, with the default
    code table as dictionary.  When the result is not a usable code table, the
    default one stays in use (the decoder ignores the error). *)
Definition file_format (version : Z) (tbl : code_table) (ns ss : Z) (allow_target : bool) : format :=
  {| f_ext := version =? 83; f_table := tbl; f_near := ns; f_same := ss; f_target := allow_target |}.
Definition file_header (version ind : Z) : list Z := [214; 195; 196; version; ind].
(** The limits under which code tables are decoded: the default maximum sizes, and
    no window is read once there are 1536 bytes. *)
Definition table_limit (prev T : list Z) : Prop :=
  within 67108864 67108864 prev T /\ zlen prev < 1536 /\ zlen prev + zlen T <= 1536.
(** There are 256 modes; the decoder checks this when the first window starts. *)
Definition modes_fit (ns ss : Z) (ws : list Z) : Prop := ws = [] \/ ns + ss + 1 <= 255.
Inductive head (t tl : tolerance) : list Z -> Z -> code_table -> Z -> Z -> Prop :=
| head_default : forall version ind,
    version = 0 \/ version = 83 ->
    byte_ok ind -> Z.testbit ind 0 = false -> Z.testbit ind 1 = false ->
    head t tl (file_header version ind) version rfc_table 4 3
| head_custom : forall version ind b_near ns b_same ss h version' tbl' ns' ss' ws s tbl,
    version = 0 \/ version = 83 ->
    byte_ok ind -> Z.testbit ind 0 = false -> Z.testbit ind 1 = true ->
    varint b_near ns -> varint b_same ss -> ns <= 255 -> ss <= 255 ->
    head t t h version' tbl' ns' ss' -> modes_fit ns' ss' ws ->
    windows t tl (file_format version' tbl' ns' ss' true) (string_of_table rfc_table) table_limit [] ws s ->
    zlen s = 1536 ->
    (usable_table ((ns + ss + 1) mod 256) s /\ tbl = table_of_string s) \/
    (~ usable_table ((ns + ss + 1) mod 256) s /\ tbl = rfc_table) ->
    head t tl (file_header version ind ++ b_near ++ b_same ++ h ++ ws) version tbl ns ss.

(** [t] are the tolerances granted to windows in general, [tl] those for the last
    window of the file.  An empty string counts as a file without windows, as
    the decoder documents (vcdecoder.cc 441-443). *)
Inductive vcd_file (t tl : tolerance) (allow_target : bool) (ok : list Z -> list Z -> Prop) (dict : list Z)
  : list Z -> list Z -> Prop :=
| file_empty : vcd_file t tl allow_target ok dict [] []
| file_intro : forall h version tbl ns ss ws out,
    head t (match ws with [] => tl | _ => t end) h version tbl ns ss -> modes_fit ns ss ws ->
    windows t tl (file_format version tbl ns ss allow_target) dict ok [] ws out ->
    vcd_file t tl allow_target ok dict (h ++ ws) out.

(** ** Chains of file headers

    When bit 1 of the indicator byte is set, the header continues with the two
    cache sizes and is followed by a whole file that encodes the code table (this
    implementation omits the RFC's "length of code table data" field). *)

(** Some header in the chain has the version byte of the SDCH format. *)
Inductive s_version : list Z -> Prop :=
| sv_here : forall ind tl, s_version (file_header 83 ind ++ tl)
| sv_nested : forall v ind p q ns ss x, Z.testbit ind 1 = true -> varint p ns -> varint q ss ->
    s_version x -> s_version (file_header v ind ++ p ++ q ++ x).

(** Some header in the chain declares a near cache of 254 and no same cache. *)
Inductive bad_cache : list Z -> Prop :=
| bad_here : forall v ind p q x, Z.testbit ind 1 = true -> varint p 254 -> varint q 0 ->
    bad_cache (file_header v ind ++ p ++ q ++ x)
| bad_nested : forall v ind p q ns ss x, Z.testbit ind 1 = true -> varint p ns -> varint q ss ->
    bad_cache x -> bad_cache (file_header v ind ++ p ++ q ++ x).

(** The data does not begin with a file header that announces a code table. *)
Definition no_code_table (X : list Z) : Prop :=
  forall v ind tl, X = file_header v ind ++ tl -> Z.testbit ind 1 = false.

(** ** The fields of a window before its body, and what they declare (RFC section
    4.2, 4.3).  [h_counted] is the number of bytes between the length of the
    delta encoding and the body; [h_checksum] is [None] when there is none. *)
Record declared := {
  h_ind : Z; h_delta_len : Z; h_counted : Z; h_target_len : Z;
  h_data_len : Z; h_inst_len : Z; h_addr_len : Z; h_checksum : option Z
}.
Definition segment_fields (ind : Z) (bytes : list Z) : Prop :=
  if Z.testbit ind 0 || Z.testbit ind 1
  then exists b1 len b2 pos, bytes = b1 ++ b2 /\ varint b1 len /\ varint b2 pos
  else bytes = [].
Definition checksum_bytes (ext : bool) (ind : Z) (bytes : list Z) (c : option Z) : Prop :=
  if ext && Z.testbit ind 2 then exists v, c = Some v /\ varint bytes v else bytes = [] /\ c = None.
Inductive declares (ext : bool) : list Z -> declared -> Prop :=
| declares_intro : forall ind sb bd dl bt tl di bnd nd bni ni bna na bck c,
    segment_fields ind sb -> varint bd dl -> varint bt tl ->
    varint bnd nd -> varint bni ni -> varint bna na -> checksum_bytes ext ind bck c ->
    declares ext ([ind] ++ sb ++ bd ++ bt ++ [di] ++ bnd ++ bni ++ bna ++ bck)
      {| h_ind := ind; h_delta_len := dl; h_counted := zlen (bt ++ [di] ++ bnd ++ bni ++ bna ++ bck);
         h_target_len := tl; h_data_len := nd; h_inst_len := ni; h_addr_len := na; h_checksum := c |}.
