(** Reading the JSON form of a delta (RFC 8259, jsonwriter.h 29-39).
    No definition of a model file is used here.

    The document is an array of strings and of pairs of numbers.  This reader
    accepts the JSON arrays of strings and non-negative integers that are
    written without white space, and whose strings contain only ASCII. *)

From Verif Require Import Base Spec.

Inductive element := JString (s : list Z) | JNumber (n : Z).

(** RFC 8259 section 7: the escapes for one character. *)
Definition simple_escape (c : Z) : option Z :=
  if c =? 34 then Some 34           (* quotation mark *)
  else if c =? 92 then Some 92      (* backslash *)
  else if c =? 47 then Some 47      (* slash *)
  else if c =? 98 then Some 8       (* b: backspace *)
  else if c =? 102 then Some 12     (* f: form feed *)
  else if c =? 110 then Some 10     (* n: line feed *)
  else if c =? 114 then Some 13     (* r: carriage return *)
  else if c =? 116 then Some 9      (* t: tab *)
  else None.
Definition hex_value (c : Z) : option Z :=
  if (48 <=? c) && (c <=? 57) then Some (c - 48)
  else if (97 <=? c) && (c <=? 102) then Some (c - 87)
  else if (65 <=? c) && (c <=? 70) then Some (c - 55)
  else None.
Definition hex4 (a b c d : Z) : option Z :=
  match hex_value a, hex_value b, hex_value c, hex_value d with
  | Some a, Some b, Some c, Some d => Some (((a * 16 + b) * 16 + c) * 16 + d)
  | _, _, _, _ => None
  end.

(** The rest of a string after its opening quote: the characters, and what
    follows the closing quote.  Characters below 32 must not stand for
    themselves. *)
Fixpoint read_string (l : list Z) (acc : list Z) : option (list Z * list Z) :=
  match l with
  | [] => None
  | c :: tl =>
      if c =? 34 then Some (acc, tl)
      else if c =? 92 then
        match tl with
        | [] => None
        | e :: tl2 =>
            if e =? 117 then
              match tl2 with
              | a :: b :: c :: d :: tl3 =>
                  match hex4 a b c d with Some x => read_string tl3 (acc ++ [x]) | None => None end
              | _ => None
              end
            else
              match simple_escape e with Some x => read_string tl2 (acc ++ [x]) | None => None end
        end
      else if (32 <=? c) && (c <? 128) then read_string tl (acc ++ [c])
      else None
  end.

(** RFC 8259 section 6: digits, without superfluous leading zeros. *)
Definition is_digit (c : Z) : bool := (48 <=? c) && (c <=? 57).
Fixpoint read_digits (l : list Z) (acc : Z) : Z * list Z :=
  match l with
  | c :: tl => if is_digit c then read_digits tl (acc * 10 + (c - 48)) else (acc, l)
  | [] => (acc, l)
  end.
Definition read_number (l : list Z) : option (Z * list Z) :=
  match l with
  | [] => None
  | c :: tl =>
      if negb (is_digit c) then None
      else if c =? 48 then
        match tl with
        | c' :: _ => if is_digit c' then None else Some (0, tl)
        | [] => Some (0, tl)
        end
      else Some (read_digits l 0)
  end.

Definition read_element (l : list Z) : option (element * list Z) :=
  match l with
  | c :: tl =>
      if c =? 34 then match read_string tl [] with Some (s, r) => Some (JString s, r) | None => None end
      else match read_number l with Some (n, r) => Some (JNumber n, r) | None => None end
  | [] => None
  end.

(** Elements separated by commas, closed by a bracket at the end of the text.
    Every element is at least one byte long, so that the length of the text is
    enough fuel. *)
Fixpoint read_elements (fuel : nat) (l : list Z) : option (list element) :=
  match fuel with
  | O => None
  | S n =>
      match read_element l with
      | None => None
      | Some (e, c :: tl) =>
          if c =? 44 then match read_elements n tl with Some es => Some (e :: es) | None => None end
          else if (c =? 93) && (match tl with [] => true | _ => false end) then Some [e]
          else None
      | Some (e, []) => None
      end
  end.
Definition read_array (l : list Z) : option (list element) :=
  match l with
  | 91 :: tl =>
      match tl with
      | [93] => Some []
      | _ => read_elements (length tl) tl
      end
  | _ => None
  end.

(** jsonwriter.h 32-38: a string stands for itself; two numbers are the offset and
    the length of a COPY from the dictionary followed by the target so far. *)
Fixpoint apply_elements (dict T : list Z) (l : list element) : option (list Z) :=
  match l with
  | [] => Some T
  | JString s :: tl => apply_elements dict (T ++ s) tl
  | JNumber a :: JNumber n :: tl =>
      match copy_bytewise (Z.to_nat n) dict T a with Some T' => apply_elements dict T' tl | None => None end
  | JNumber _ :: _ => None
  end.
