(** Model of src/vcdiffengine.{h,cc}.

    The engine only calls Add, Copy and (at the end) Output on the coder, and its
    control flow does not depend on the coder.  It is modelled by the list of
    the Add and Copy calls that it makes before the call of Output. *)

From Verif Require Import Base SpecEncode RollingHash BlockHash.

(** vcdiffengine.h 38, 78-81 *)
Definition kMinimumMatchSize : Z := 32.

(** vcdiffengine.h 108-115: the members that do not change.  dictionary_ and
    dictionary_size_ are the list; [None]: Init has not been called or failed. *)
Record engine := { en_dict : list Z; en_hash : option blockhash }.

(** vcdiffengine.cc 26-35 *)
Definition new_engine (dict : list Z) : engine := {| en_dict := dict; en_hash := None |}.

(** vcdiffengine.cc 44-58 [Init] *)
Definition engine_init (en : engine) : option (engine * bool) :=
  match en_hash en with
  | Some _ => Some (en, false)                                           (* VCD_DFATAL *)
  | None =>
      match create_dictionary_hash (en_dict en) with
      | None => None
      | Some None => Some (en, false)
      | Some (Some h) => Some ({| en_dict := en_dict en; en_hash := Some h |}, true)
      end
  end.

(** vcdiffengine.cc 75-115 [EncodeCopyForBestMatch]: the return value
    bytes_encoded and the calls made.  [target_hash = None] is NULL, that is
    look_for_target_matches is false. *)
Definition encode_copy_for_best_match (dict_hash : blockhash) (target_hash : option blockhash)
    (hash_value : Z) (target : list Z) (cand start size : Z) : option (Z * list instruction) :=
  match find_best_match dict_hash hash_value target cand start size no_match with
  | None => None
  | Some best1 =>
      match (match target_hash with
             | Some th => find_best_match th hash_value target cand start size best1
             | None => Some best1
             end) with
      | None => None
      | Some best =>
          if negb (kMinimumMatchSize <=? m_size best) then Some (0, [])
          else if 0 <? m_target best then
            match slice target start (m_target best) with
            | None => None
            | Some d => Some (m_target best + m_size best, [Add d; Copy (m_source best) (m_size best)])
            end
          else Some (m_target best + m_size best, [Copy (m_source best) (m_size best)])
      end
  end.

(** vcdiffengine.cc 123-130 [AddUnmatchedRemainder] *)
Definition add_unmatched_remainder (target : list Z) (start size : Z) : option (list instruction) :=
  if 0 <? size then
    match slice target start size with
    | None => None
    | Some d => Some [Add d]
    end
  else Some [].

(** vcdiffengine.cc 103-203: calls made before the others *)
Definition prepend (l : list instruction) (r : option (Z * list instruction)) : option (Z * list instruction) :=
  match r with Some (e, l') => Some (e, l ++ l') | None => None end.

(** vcdiffengine.cc 173-212, the loop of [EncodeInternal]: next_encode at the end
    of the loop and the calls made.  Each iteration moves candidate_pos; the
    fuel is the size of the target. *)
Fixpoint encode_loop (fuel : nat) (dict_hash : blockhash) (target : list Z) (rt : list Z)
    (next_encode cand hash_value : Z) (target_hash : option blockhash) : option (Z * list instruction) :=
  match fuel with
  | O => None
  | S n =>
      let target_size := zlen target in
      let start_of_last_block := target_size - kBlockSize in
      match encode_copy_for_best_match dict_hash target_hash hash_value target cand next_encode
              (target_size - next_encode) with
      | None => None
      | Some (bytes_encoded, calls) =>
          if 0 <? bytes_encoded then
            let next := next_encode + bytes_encoded in
            if start_of_last_block <? next then Some (next, calls)
            else
              match slice target next kBlockSize with
              | None => None
              | Some b =>
                  match hash_direct kBlockSize b with
                  | None => None
                  | Some h =>
                      match target_hash with
                      | None => prepend calls (encode_loop n dict_hash target rt next next h None)
                      | Some th =>
                          match add_all_blocks_through_index th (to_int32 next) with
                          | None => None
                          | Some th' => prepend calls (encode_loop n dict_hash target rt next next h (Some th'))
                          end
                      end
                  end
              end
          else if start_of_last_block <? cand + 1 then Some (next_encode, calls)
          else
            match (match target_hash with
                   | None => Some None
                   | Some th =>
                       match add_one_index_hash th (to_int32 cand) hash_value with
                       | None => None
                       | Some th' => Some (Some th')
                       end
                   end) with
            | None => None
            | Some target_hash' =>
                match get target cand, get target (cand + kBlockSize) with
                | Some first, Some last =>
                    match update_hash rt hash_value first last with
                    | None => None
                    | Some h => prepend calls (encode_loop n dict_hash target rt next_encode (cand + 1) h target_hash')
                    end
                | _, _ => None
                end
            end
      end
  end.

(** vcdiffengine.cc 132-228 [Encode]: the calls made on the coder.
    [Some (Some l)]: the calls [l] followed by Output; [Some None]: no calls at
    all, not even Output. *)
Definition engine_encode (en : engine) (look_for_target_matches : bool) (target : list Z)
    : option (option (list instruction)) :=
  match en_hash en with
  | None => Some None                                                    (* VCD_DFATAL *)
  | Some dict_hash =>
      let target_size := zlen target in
      if target_size =? 0 then Some None
      else if target_size <? kBlockSize then
        match add_unmatched_remainder target 0 target_size with
        | None => None
        | Some l => Some (Some l)
        end
      else
        match (if look_for_target_matches then create_target_hash target (zlen (en_dict en))
               else Some None) with
        | None => None
        | Some th =>
            if look_for_target_matches && (match th with None => true | Some _ => false end)
            then Some None                                               (* VCD_DFATAL *)
            else
              match slice target 0 kBlockSize with
              | None => None
              | Some b =>
                  match hash_direct kBlockSize b with
                  | None => None
                  | Some h =>
                      match encode_loop (Z.to_nat target_size) dict_hash target (remove_table kBlockSize) 0 0 h th with
                      | None => None
                      | Some (next_encode, calls) =>
                          match add_unmatched_remainder target next_encode (target_size - next_encode) with
                          | None => None
                          | Some l => Some (Some (calls ++ l))
                          end
                      end
                  end
              end
        end
  end.
