(* Specification vocabulary for files that are not at their beginning when a
   reader is made from them, or a dataset written to them. *)
From Coq Require Import ZArith List.
From Verif Require Import Py Spec_Packing.
Import ListNotations.
Open Scope list_scope.
Open Scope Z_scope.

(* new is what the bytes b, put at offset q, make of old: beyond its end, zeros
   are filled in *)
Definition put (old : list Z) (q : Z) (b new : list Z) : Prop :=
  (b = [] -> new = old) /\
  (b <> [] -> zlen new = Z.max (zlen old) (q + zlen b) /\
    forall i, 0 <= i < zlen new ->
      byte_at new i = if (q <=? i) && (i <? q + zlen b) then byte_at b (i - q) else if i <? zlen old then byte_at old i else 0)%bool.
