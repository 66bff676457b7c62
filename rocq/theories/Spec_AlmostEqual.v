(* What it means for two numbers to be almost equal, over the integers.
   Every finite double is [units x / unit]. *)
From Coq Require Import ZArith.
From Coq Require Import Floats.SpecFloat.
From Verif Require Import Py PyFloat Spec_Ibm.
Open Scope Z_scope.

(* max(1, |x|, |y|), in units *)
Definition magnitude (x y : float) : Z := Z.max unit (Z.max (Z.abs (units x)) (Z.abs (units y))).

(* |x - y| <= 2^-k max(1, |x|, |y|), exactly *)
Definition within (k : Z) (x y : float) : Prop :=
  Z.abs (units x - units y) * 2 ^ k <= magnitude x y.

(* at least one of the two is one or more, in magnitude *)
Definition not_both_small (x y : float) : Prop :=
  unit <= Z.abs (units x) \/ unit <= Z.abs (units y).
