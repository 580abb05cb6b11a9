(** Specifications for the encoder side: the instructions that a code table writer
    is given.  No definition of a model file is used here. *)

From Verif Require Import Base Spec.

(** ** Delta instructions by themselves (RFC section 3), as they are given to a
    code table writer. *)
Inductive instruction :=
| Add (data : list Z)
| Copy (addr size : Z)
| Run (size byte : Z).
Definition execute (seg T : list Z) (i : instruction) : option (list Z) :=
  match i with
  | Add d => Some (T ++ d)
  | Run n b => Some (T ++ zrepeat b n)
  | Copy a n => if (0 <=? a) && (a <? zlen seg + zlen T) then copy_bytewise (Z.to_nat n) seg T a else None
  end.
Fixpoint execute_all (seg T : list Z) (l : list instruction) : option (list Z) :=
  match l with
  | [] => Some T
  | i :: tl => match execute seg T i with Some T' => execute_all seg T' tl | None => None end
  end.

(** ** What a good plan is

    [genuine_plan look dict T after_add l T']: the instructions [l] extend the
    target data [T] to [T'].  No ADD is empty or follows another ADD.  Every COPY
    is of at least 32 bytes and is taken entirely from the dictionary, or, only
    if [look], starts in the target data produced before it. *)
Inductive genuine_plan (look : bool) (dict : list Z) : list Z -> bool -> list instruction -> list Z -> Prop :=
| gp_nil : forall T b, genuine_plan look dict T b [] T
| gp_add : forall T d l T',
    d <> [] -> genuine_plan look dict (T ++ d) true l T' -> genuine_plan look dict T false (Add d :: l) T'
| gp_copy : forall T b a n T1 l T',
    32 <= n ->
    (0 <= a /\ a + n <= zlen dict) \/ (look = true /\ zlen dict <= a < zlen dict + zlen T) ->
    copy_bytewise (Z.to_nat n) dict T a = Some T1 ->
    genuine_plan look dict T1 false l T' ->
    genuine_plan look dict T b (Copy a n :: l) T'.
