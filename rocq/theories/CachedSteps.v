(* create_reader with a cache directory as the sequence of what it asks of the file
   object, as in Growing.v and Hashing.v, so that the file can change between any
   two steps.  No proofs here; that this is the create_reader_cached of Cache.v
   when the file does not change is C143_steps.
   Simplified: the cache and the classes (env) are changed by nobody else
   meanwhile. *)
From Coq Require Import String ZArith List Bool.
From Verif Require Import Py Util Catalog Packing Formats FileIO Text TextIO Toolkit Reader Cache Growing Hashing.
Import ListNotations.
Local Open Scope string_scope.
Open Scope list_scope.
Open Scope Z_scope.

(* an exception as a value
   [reader.py:149-157: what follows depends on it] *)
Fixpoint attempt {A} (m : steps A) : steps (res A) :=
  match m with
  | Fin r => Fin (Ok r)
  | AskLength k => AskLength (fun n => attempt (k n))
  | AskPos k => AskPos (fun n => attempt (k n))
  | MoveTo p k => MoveTo p (attempt k)
  | GetBytes n k => GetBytes n (fun b => attempt (k b))
  | Show a b k => Show a b (attempt k)
  end.

(* reader.py:111-140 the checks of the arguments *)
Definition check_steps (a : file_attrs) (e : option endian) (progress : progress_arg) (dim : option Z) : steps endian :=
  if fa_closed a then Fin (Err ValueError)
  else if fa_text a then Fin (Err TypeError)
  else if negb (fa_seekable a) then Fin (Err TypeError)
  else
    step num_file_bytes <- AskLength (fun n => Fin (Ok n)) ;;
    if num_file_bytes <? REEL_HEADER_NUM_BYTES then Fin (Err ValueError)
    else match e with
    | None => Fin (Err ValueError)
    | Some e =>
        match progress with
        | NotCallable => Fin (Err TypeError)
        | _ => if match dim with None => false | Some d => negb (zmem d [1; 2; 3]) end then Fin (Err ValueError) else Fin (Ok e)
        end
    end.

(* what a call ends with: its result or exception, and the cache it leaves
   [reader.py:38-159] *)
Definition ending : Type := (res (reader * source) * env)%type.

(* reader.py:151-159 a reader is made and saved; k is where *)
Definition build_steps (f1 f2 : nat) (c : call) (name : fname) (bc tc : fmt) (e : endian) (k : option ckey) (en : env) : steps ending :=
  step r <- attempt (make_steps f1 f2 (ca_enc c) bc tc e (ca_dim c)) ;;
  match r with
  | Err y => Fin (Ok (Err y, en))
  | Ok r =>
      step (saved, en) <- match k with
                          | Some k => AskPos (fun pos => Fin (Ok (save_reader k name pos (ca_bc c) (ca_tc c) r en)))
                          | None => Fin (Ok (Ok tt, en))
                          end ;;
      match saved with
      | Err y => Fin (Ok (Err y, en))
      | Ok _ => Show 1 1 (Fin (Ok (Ok (r, Callers), en)))
      end
  end.
(* reader.py:38-159 create_reader.  f0 bounds the number of chunks that are
   hashed, f1 and f2 are as in open_steps. *)
Definition cached_steps (f0 f1 f2 : nat) (c : call) (name : fname) (a : file_attrs) (en : env) : steps ending :=
  step e <- attempt (check_steps a (ca_endian c) (ca_progress c) (ca_dim c)) ;;
  match e with
  | Err y => Fin (Ok (Err y, en))
  | Ok e =>
      match class_of en (ca_bc c), class_of en (ca_tc c) with
      | Some bc, Some tc =>
          match ca_dir c with
          | NoCache => build_steps f1 f2 c name bc tc e None en
          | dir =>
              step sha1 <- attempt (hash_steps f0 (hash_args c e)) ;;
              match sha1 with
              | Err y => Fin (Ok (Err y, en))
              | Ok sha1 =>
                  match locate_cache_file name dir sha1 with
                  | Err y => Fin (Ok (Err y, en))
                  | Ok None => build_steps f1 f2 c name bc tc e None en
                  | Ok (Some k) =>
                      match load_reader k en with
                      | (Err y, en) => Fin (Ok (Err y, en))
                      | (Ok (Some (r, f)), en) => Show 1 1 (Fin (Ok (Ok (r, Reopened f), en)))
                      | (Ok None, en) => build_steps f1 f2 c name bc tc e (Some k) en
                      end
                  end
              end
          end
      | _, _ => Fin (Ok (Err AttributeError, en))  (* not a class: no such call *)
      end
  end.
