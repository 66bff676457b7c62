(* Specification vocabulary for C150. *)
From Coq Require Import ZArith List.
From Verif Require Import Py PyFloat IbmFloat Spec_Ibm Toolkit Spec_Segy Spec_Writer Spec_Transform Spec_TypesBack.
Open Scope Z_scope.

(* the limit of the example for samples of the type *)
Definition in_limit (t : segytype) (v : Z) : Prop := t = T_FLOAT32 -> Z.abs v <= float32_limit.
(* samples of the type can have the product of s and f *)
Definition exact_product (t : segytype) (f : float) (s : real) : Prop :=
  finite_number s /\ exists v, v * unit = value s * units f /\ has_value t v /\ in_limit t v.
(* s' is s times f *)
Definition times (f : float) (s s' : real) : Prop := finite_number s /\ finite_number s' /\ value s' * unit = value s * units f.
