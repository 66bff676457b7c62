(* Specification vocabulary for C148. *)
From Coq Require Import String ZArith List.
From Verif Require Import Py PyFloat IbmFloat Packing Spec_Ibm Toolkit Spec_Segy Spec_Writer Spec_Transform.
Import ListNotations.
Local Open Scope string_scope.
Open Scope list_scope.
Open Scope Z_scope.

(* samples of the type can have this value *)
Definition has_value (t : segytype) (v : Z) : Prop := exists s, exact_sample t s /\ finite_number s /\ value s = v.
(* the same number, perhaps in another form *)
Definition same_number (s s' : real) : Prop := finite_number s /\ finite_number s' /\ value s' = value s.
(* binary headers that differ in the sample type only, which is code in the second *)
Definition retyped (code : Z) (h h' : header) : Prop := same_but ["data_sample_format"] h h' /\ hdr_get h' "data_sample_format" = Ok code.
