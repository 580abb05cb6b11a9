(** Specification for C83: a target put together from parts of the dictionary and new
    data.  No definition of a model file is used here. *)

From Verif Require Import Base SpecFind.

(** Every 16 bytes in a row occur only once in [l]. *)
Definition unique16 (l : list Z) : Prop :=
  forall i j s, slice l i 16 = Some s -> slice l j 16 = Some s -> i = j.

(** No slot of the index of [l] is crowded (see [SpecFind.easy]). *)
Definition uncrowded (l : list Z) : Prop :=
  forall b, 0 <= b -> 16 * b + 16 <= zlen l -> crowd (zlen l) l b <= 16.

(** The parts of a target in order, each with a mark that says whether it comes from
    the dictionary. *)
Definition parts := list (bool * list Z).
Definition assembled (ps : parts) : list Z := concat (map snd ps).
Definition kept_parts (dict : list Z) (ps : parts) : Prop :=
  Forall (fun p => fst p = true -> exists i, slice dict i (zlen (snd p)) = Some (snd p)) ps.
(** How many bytes are new. *)
Fixpoint new_bytes (ps : parts) : Z :=
  match ps with [] => 0 | (k, c) :: tl => (if k then 0 else zlen c) + new_bytes tl end.
