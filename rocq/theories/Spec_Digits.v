(* Specification of rounding to decimal digits, for C104. *)
From Coq Require Import ZArith.
From Verif Require Import Spec_Ibm.
Open Scope Z_scope.

(* 10^n is tens n / tens (-n) *)
Definition tens (n : Z) : Z := 10 ^ Z.max n 0.
(* k / 10^n is the number with n digits after the point (before it, if n is
   negative, -n digits are zero) that is nearest to v (in units), in a tie the
   one whose last digit is even *)
Definition nearest_decimal (v n k : Z) : Prop :=
  forall j, Z.abs (k * tens (- n) * unit - v * tens n) <= Z.abs (j * tens (- n) * unit - v * tens n) /\
    (Z.abs (k * tens (- n) * unit - v * tens n) = Z.abs (j * tens (- n) * unit - v * tens n) -> j <> k -> Z.even k = true).
