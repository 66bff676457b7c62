(* Specification vocabulary for C151. *)
From Coq Require Import String ZArith List.
From Verif Require Import Py PyFloat IbmFloat Packing Spec_Ibm Spec_Packing Spec_Transform.
Import ListNotations.
Local Open Scope string_scope.
Open Scope list_scope.
Open Scope Z_scope.

(* the product of the coordinate named n and f is an integer that has a place in the field *)
Definition whole_product (f : float) (n : string) (h : header) : Prop :=
  forall v, hdr_get h n = Ok v -> exists m, m * unit = v * units f /\ - 2 ^ 31 <= m < 2 ^ 31.
(* the source coordinates of h' are those of h times f, everything else is the same *)
Definition coordinates_times (f : float) (h h' : header) : Prop :=
  same_but ["source_x"; "source_y"] h h' /\
  forall n, source_field n -> exists v m, hdr_get h n = Ok v /\ hdr_get h' n = Ok m /\ m * unit = v * units f.
