(** Model of src/jsonwriter.cc and src/google/jsonwriter.h: [JSONCodeTableWriter]. *)

From Verif Require Import Base SpecEncode.

(** jsonwriter.h 86-94: the members output_, output_called_, opcode_added_. *)
Record json_writer := { jw_out : list Z; jw_called : bool; jw_added : bool }.

(** jsonwriter.cc 26-27 *)
Definition new_json_writer : json_writer := {| jw_out := []; jw_called := false; jw_added := false |}.

(** jsonwriter.cc 30-34 [Init]: always succeeds. *)
Definition json_init (j : json_writer) : json_writer :=
  {| jw_out := [91]; jw_called := jw_called j; jw_added := false |}.

(** jsonwriter.cc 36-40 [Output]: new state and bytes appended. *)
Definition json_output (j : json_writer) : json_writer * list Z :=
  ({| jw_out := []; jw_called := true; jw_added := jw_added j |}, jw_out j).

(** jsonwriter.cc 42-46 [FinishEncoding]: bytes appended. *)
Definition json_finish (j : json_writer) : list Z := if jw_called j then [93] else [].

(** snprintf "%x", one digit *)
(** jsonwriter.cc 65 *)
Definition hex_digit (x : Z) : Z := if x <? 10 then 48 + x else 87 + x.

(** jsonwriter.cc 48-72 [JSONEscape], one byte.  "\u%04x" of a byte has two zero
    digits and the two digits of the byte. *)
Definition json_escape_byte (c : Z) : list Z :=
  if c =? 34 then [92; 34]
  else if c =? 92 then [92; 92]
  else if c =? 8 then [92; 98]
  else if c =? 12 then [92; 102]
  else if c =? 10 then [92; 110]
  else if c =? 13 then [92; 114]
  else if c =? 9 then [92; 116]
  else if (c <? 32) || (127 <=? c) then [92; 117; 48; 48; hex_digit (c / 16); hex_digit (c mod 16)]
  else [c].
(** jsonwriter.cc 48-72 [JSONEscape] *)
Definition json_escape (data : list Z) : list Z := flat_map json_escape_byte data.

(** operator<< for integers: decimal digits; the fuel is enough for 64 bits. *)
(** jsonwriter.cc 91 *)
Fixpoint digits (fuel : nat) (x : Z) (acc : list Z) : list Z :=
  match fuel with
  | O => acc
  | S n => let acc' := (48 + x mod 10) :: acc in if x <? 10 then acc' else digits n (x / 10) acc'
  end.
(** jsonwriter.cc 91 *)
Definition decimal (x : Z) : list Z := if x <? 0 then 45 :: digits 20 (- x) [] else digits 20 x [].

(** The leading comma, jsonwriter.cc 76-78, 87-89, 98-100 *)
Definition json_comma (j : json_writer) : list Z := if jw_added j then [44] else [].
(** jsonwriter.cc 76-82, 87-93, 98-104 *)
Definition json_append (j : json_writer) (l : list Z) : json_writer :=
  {| jw_out := jw_out j ++ json_comma j ++ l; jw_called := jw_called j; jw_added := true |}.

(** jsonwriter.cc 74-83 [Add], 85-94 [Copy], 96-105 [Run] *)
Definition json_add (j : json_writer) (data : list Z) : json_writer :=
  json_append j ([34] ++ json_escape data ++ [34]).
(** jsonwriter.cc 85-94 *)
Definition json_copy (j : json_writer) (offset size : Z) : json_writer :=
  json_append j (decimal (to_int32 offset) ++ [44] ++ decimal (to_size size)).
(** jsonwriter.cc 96-105 *)
Definition json_run (j : json_writer) (size byte : Z) : json_writer :=
  json_append j ([34] ++ zrepeat byte size ++ [34]).

(** jsonwriter.cc 74-105 *)
Definition json_call (j : json_writer) (i : instruction) : json_writer :=
  match i with
  | Add d => json_add j d
  | Copy a n => json_copy j a n
  | Run n b => json_run j n b
  end.

(** jsonwriter.cc 132-139 [IsAscii], which is what 112-122 [VerifyDictionary]
    and 124-130 [VerifyChunk] return. *)
Definition is_ascii (data : list Z) : bool := forallb (fun c => negb (128 <=? c)) data.
