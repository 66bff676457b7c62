(* Comparing floats for being almost equal (C128). *)
From Coq Require Import ZArith List Bool Lia.
From Coq Require Import Floats.SpecFloat.
From Verif Require Import Py PyFloat IbmFloat AlmostEqual Spec_Ibm Spec_AlmostEqual FloatFacts IndicatorFacts AlmostEqualFacts.
Import ListNotations.
Open Scope Z_scope.

Definition flt (m : positive) (e : Z) : float := S754_finite false m e.

(* The order of the two arguments does not matter, whatever they are and whatever
   epsilon is, NaN and infinities included. *)
Theorem C128_symmetric : forall x y eps, float_wf x -> float_wf y -> almost_equal x y eps = almost_equal y x eps.
Proof. exact almost_sym. Qed.
Print Assumptions C128_symmetric.

(* NaN is almost equal to nothing, not even to itself. *)
Theorem C128_nan : forall x eps, almost_equal S754_nan x eps = false.
Proof. exact almost_nan. Qed.
Print Assumptions C128_nan.

(* The property itself, for epsilon 2^-k, when one of the two is at least 1 in
   magnitude: True exactly if the true difference is within epsilon of the greater.
   No rounding error can be seen. *)
Theorem C128_exact_partial : forall x y k, float_wf x -> finite x -> float_wf y -> finite y -> 2 <= k <= 52 -> not_both_small x y ->
  (almost_equal x y (Some (f_pow2 (- k))) = true <-> within k x y).
Proof. intros x y k Wx Fx Wy Fy K N. split; [now apply true_exact|now apply close_true]. Qed.
Print Assumptions C128_exact_partial.

(* Numbers of any size that are within epsilon are always found to be. *)
Theorem C128_close : forall x y k, float_wf x -> finite x -> float_wf y -> finite y -> 2 <= k <= 52 ->
  within k x y -> almost_equal x y (Some (f_pow2 (- k))) = true.
Proof. exact close_true. Qed.
Print Assumptions C128_close.

(* Every finite number is almost equal to itself. *)
Theorem C128_reflexive : forall x k, float_wf x -> finite x -> 2 <= k <= 52 -> almost_equal x x (Some (f_pow2 (- k))) = true.
Proof.
  intros x k W F K. apply close_true; auto. unfold within, magnitude. rewrite Z.sub_diag, Z.mul_0_l. pose proof unit_pos as P.
  apply Z.le_trans with unit; [now apply Z.lt_le_incl|apply Z.le_max_l].
Qed.
Print Assumptions C128_reflexive.

(* Numbers of any size that are found to be almost equal exceed the bound by at
   most one part in 2^52. *)
Theorem C128_error : forall x y k, float_wf x -> finite x -> float_wf y -> finite y -> 2 <= k <= 52 ->
  almost_equal x y (Some (f_pow2 (- k))) = true ->
  Z.abs (units x - units y) * 2 ^ k * 2 ^ 52 <= magnitude x y * (2 ^ 52 + 1).
Proof. exact true_close. Qed.
Print Assumptions C128_error.

(* Left out, epsilon is 2^-52. *)
Theorem C128_default : forall x y, almost_equal x y None = almost_equal x y (Some (f_pow2 (-52))).
Proof. reflexivity. Qed.
Print Assumptions C128_default.

(* A float that went through an IBM float is almost equal to what it was, for the
   epsilon that the module exports for this. *)
Theorem C128_ibm : forall f w, float_wf f -> ieee2ibm f = Ok w ->
  exists g, ibm_float w = Ok g /\ almost_equal f g (Some EPSILON_IBM_FLOAT) = true.
Proof. exact roundtrip_close. Qed.
Print Assumptions C128_ibm.
(* 0.1, which becomes a smaller number *)
Definition tenth : float := flt 7205759403792794 (-56).
Example C128_ibm_example : float_wf tenth /\ ieee2ibm tenth = Ok (W 64 25 153 153) /\
  match ibm_float (W 64 25 153 153) with Ok g => almost_equal tenth g None = false /\ almost_equal tenth g (Some EPSILON_IBM_FLOAT) = true | Err _ => False end.
Proof. repeat (apply conj; [vm_compute; reflexivity|]); vm_compute; auto. Qed.

(* The property is false when both are below 1: 2^-52 and -2^-1074 differ by more
   than the bound of 2^-52, but the difference is rounded before it is compared. *)
Definition tiny_negative : float := S754_finite true 1 (-1074).
Theorem C128_small_refuted : exists x y, float_wf x /\ finite x /\ float_wf y /\ finite y /\
  almost_equal x y None = true /\ ~ within 52 x y.
Proof.
  exists (f_pow2 (-52)), tiny_negative. repeat (apply conj; [vm_compute; reflexivity || exact I|]).
  unfold within. vm_compute. intros H. now apply H.
Qed.
Print Assumptions C128_small_refuted.

(* With infinities it is the wrong way round: an infinity is not almost equal to
   itself, but it is to every finite number and to the opposite infinity. *)
Theorem C128_infinity_refuted : forall s,
  (forall eps, almost_equal (S754_infinity s) (S754_infinity s) eps = false) /\
  (forall y k, -1022 <= k <= 1023 -> finite y \/ y = S754_infinity (negb s) ->
     almost_equal (S754_infinity s) y (Some (f_pow2 k)) = true).
Proof. intros s. split; [apply almost_inf_inf|apply almost_inf]. Qed.
Print Assumptions C128_infinity_refuted.

(* 1.0 and the next double; 1.0 and the one after; 3.0 and 4.0 with an epsilon of a
   quarter; 2.0 and 3.0 not, 1.0 and 0.75 just; the greatest double and its opposite *)
Definition greatest : float := S754_finite false 9007199254740991 971.
Example C128_example :
  almost_equal (f_pow2 0) (flt 4503599627370497 (-52)) None = true /\ almost_equal (f_pow2 0) (flt 4503599627370498 (-52)) None = false /\
  almost_equal (flt 6755399441055744 (-51)) (f_pow2 2) (Some (f_pow2 (-2))) = true /\
  almost_equal (f_pow2 1) (flt 6755399441055744 (-51)) (Some (f_pow2 (-2))) = false /\
  almost_equal (f_pow2 0) (flt 6755399441055744 (-53)) (Some (f_pow2 (-2))) = true /\
  almost_equal greatest (SFopp greatest) (Some (f_pow2 (-2))) = false /\ almost_equal greatest greatest None = true /\
  almost_equal S754_nan S754_nan None = false /\ almost_equal (S754_zero true) (S754_zero false) None = true.
Proof. repeat (apply conj; [vm_compute; reflexivity|]); vm_compute; reflexivity. Qed.
Example C128_met : float_wf greatest /\ float_wf (SFopp greatest) /\ not_both_small greatest (SFopp greatest) /\ ~ within 2 greatest (SFopp greatest) /\
  within 2 (f_pow2 2) (flt 6755399441055744 (-51)) /\ not_both_small (f_pow2 2) (flt 6755399441055744 (-51)).
Proof.
  assert (L : forall a b : Z, (a <=? b) = true -> a <= b) by (intros; lia).
  assert (N : forall a b : Z, (a <=? b) = false -> ~ a <= b) by (intros; lia).
  repeat (apply conj; [first [vm_compute; reflexivity|apply or_introl; apply L; vm_compute; reflexivity|apply N; vm_compute; reflexivity|apply L; vm_compute; reflexivity]|]).
  apply or_introl; apply L; vm_compute; reflexivity.
Qed.
