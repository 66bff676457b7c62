(* What C132 says. *)
From Coq Require Import ZArith List Bool.
From Verif Require Import Py PyFloat IbmFloat IbmNumber Spec_Ibm Power.
Import ListNotations.
Open Scope Z_scope.

(* in units, v is the n-th power of u *)
Definition is_power (u n v : Z) : Prop := v * unit ^ n = u ^ n * unit.

(* What is asked of C's pow: where the n-th power of a float is a float, it is found.
   (The pow of the usual C libraries is wrong by less than 0.55 units in the last
   place.) *)
Definition finds_exact_powers (c_pow : float -> float -> res float) : Prop :=
  forall x y n g, float_wf x -> finite x -> 0 < units x -> float_wf y -> finite y -> 0 <= n -> units y = n * unit ->
    float_wf g -> finite g -> is_power (units x) n (units g) -> c_pow x y = Ok g.
(* and of its results in general *)
Definition gives_floats (c_pow : float -> float -> res float) : Prop :=
  forall x y r, float_wf x -> float_wf y -> c_pow x y = Ok r -> float_wf r.

(* the value of a number, in units (an int is one that a float can hold) *)
Definition has_value (x : number) (v : Z) : Prop :=
  match x with
  | NInt n => Z.abs n <= 2 ^ 53 /\ v = n * unit
  | NFloat f => float_wf f /\ finite f /\ units f = v
  | NIbm w => word_ok w /\ ibm_units w = v
  end.
