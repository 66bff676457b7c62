(* hash_for_file as the sequence of what it asks of the file object, as
   create_reader is in Growing.v.  No proofs here; that this is the hash_for_file
   of Cache.v is C141_hash_steps. *)
From Coq Require Import String ZArith List Bool.
From Verif Require Import Py FileIO Toolkit Cache Growing.
Import ListNotations.
Open Scope list_scope.
Open Scope Z_scope.

(* util.py:468-469 the chunks, concatenated *)
Fixpoint chunks_steps (fuel : nat) : steps (list Z) :=
  match fuel with
  | O => Fin (Err OutOfFuel)
  | S fuel =>
      step chunk <- s_read HASH_BLOCK_SIZE ;;
      match chunk with
      | [] => Fin (Ok [])
      | _ => step rest <- chunks_steps fuel ;; Fin (Ok (chunk ++ rest))
      end
  end.
(* util.py:449-479 hash_for_file; fuel bounds the number of chunks *)
Definition hash_steps (fuel : nat) (args : list (list Z)) : steps (list Z) :=
  step _ <- s_seek 0 ;;
  step data <- chunks_steps fuel ;;
  step length <- AskPos (fun q => Fin (Ok q)) ;;
  step _ <- s_seek 0 ;;
  Fin (Ok (data ++ length_bytes length ++ concat args)).
