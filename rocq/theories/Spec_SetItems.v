(* Specification vocabulary for C149. *)
From Coq Require Import ZArith List Bool.
From Verif Require Import Py.
Open Scope Z_scope.

(* how many different numbers there are, and how many of them are below x *)
Definition different (xs : list Z) : Z := zlen (nodup Z.eq_dec xs).
Definition rank (xs : list Z) (x : Z) : Z := different (filter (fun y => y <? x) xs).
