(* Where the cache files are. *)
From Coq Require Import String Ascii ZArith List Bool.
From Verif Require Import Cache.
Local Open Scope string_scope.

(* no character of s is c *)
Fixpoint lacks (c : ascii) (s : string) : Prop :=
  match s with EmptyString => True | String a s => a <> c /\ lacks c s end.
(* the directory of a path: what comes before its last slash, or the current
   directory *)
Definition parent (p dir : string) : Prop :=
  (exists base, p = dir ++ "/" ++ base /\ lacks "/"%char base) \/ (lacks "/"%char p /\ dir = ".").
(* the directory documented for the cache files of a file called name *)
Inductive cache_dir_of (name : fname) : cache_dir -> string -> Prop :=
| in_absolute d : cache_dir_of name (Absolute d) d
| in_relative d p dir : name = Path p -> parent p dir -> cache_dir_of name (Relative d) (dir ++ "/" ++ d).
(* Nothing differs but the cache entry k, if there is one. *)
Definition untouched (k : option ckey) (en en' : env) : Prop :=
  en_files en' = en_files en /\ en_classes en' = en_classes en /\ en_version en' = en_version en /\
  en_mkdir en' = en_mkdir en /\ en_write en' = en_write en /\ en_unlink en' = en_unlink en /\
  forall j, k <> Some j -> en_cache en' j = en_cache en j.
