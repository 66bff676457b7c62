(* C102-C105: an IBMFloat together with the other Python numbers. *)
From Coq Require Import ZArith List Bool Lia.
From Verif Require Import Py PyFloat IbmFloat IbmNumber Spec_Ibm Spec_IbmNumber IbmNumberProps IbmNumberExact.
Import ListNotations.
Open Scope Z_scope.

(* ---------------- C102 ---------------- *)

(* Full property: an operator between an IBMFloat and a float (in either
   order) gives the float nearest to the exact result.  It fails for a float
   divided by an IBMFloat, which gives an IBMFloat: digits are dropped and
   quotients beyond the IBM range are refused. *)
Theorem C102_float_truediv_refuted : exists g x w r, word_ok x /\ float_wf g /\
  num_truediv (NFloat g) (NIbm x) = Ok (NIbm w) /\
  rounds_to (units g * unit * Z.sgn (ibm_units x)) (Z.abs (ibm_units x)) r /\ ibm_units w < units r /\
  num_truediv (NInt 1) (NIbm x) = Ok (NFloat r) /\ units g = 1 * unit.
Proof. exact float_truediv_truncates. Qed.
Print Assumptions C102_float_truediv_refuted.

Theorem C102_float_truediv_overflow_refuted : exists g x r, word_ok x /\ float_wf g /\ finite g /\ ibm_units x = unit /\
  num_truediv (NFloat g) (NIbm x) = Err OverflowError /\ num_mul (NFloat g) (NIbm x) = Ok (NFloat r) /\ units r = units g.
Proof. exact float_truediv_overflows. Qed.
Print Assumptions C102_float_truediv_overflow_refuted.

(* What holds: everything else (the bounds say that the result is not too
   large for a float). *)
Theorem C102_float_partial : forall x g, word_ok x -> float_wf g -> finite g ->
  (Z.abs (ibm_units x + units g) < 2 ^ 2097 -> exists r, rounds_to (ibm_units x + units g) 1 r /\
     num_add (NIbm x) (NFloat g) = Ok (NFloat r) /\ num_add (NFloat g) (NIbm x) = Ok (NFloat r)) /\
  (Z.abs (ibm_units x - units g) < 2 ^ 2097 ->
     (exists r, rounds_to (ibm_units x - units g) 1 r /\ num_sub (NIbm x) (NFloat g) = Ok (NFloat r)) /\
     (exists r, rounds_to (units g - ibm_units x) 1 r /\ num_sub (NFloat g) (NIbm x) = Ok (NFloat r))) /\
  (Z.abs (ibm_units x * units g) < 2 ^ 2097 * unit -> exists r, rounds_to (ibm_units x * units g) unit r /\
     num_mul (NIbm x) (NFloat g) = Ok (NFloat r) /\ num_mul (NFloat g) (NIbm x) = Ok (NFloat r)) /\
  (units g <> 0 -> Z.abs (ibm_units x) < Z.abs (units g) * 2 ^ 1023 -> exists r,
     rounds_to (ibm_units x * unit * Z.sgn (units g)) (Z.abs (units g)) r /\ num_truediv (NIbm x) (NFloat g) = Ok (NFloat r)) /\
  (units g = 0 -> num_truediv (NIbm x) (NFloat g) = Err ZeroDivisionError).
Proof. exact float_arithmetic. Qed.
Print Assumptions C102_float_partial.

(* and a float divided by an IBMFloat is what dividing two IBMFloats gives *)
Theorem C102_float_truediv_partial : forall g x, word_ok x -> float_wf g -> finite g -> ibm_units x <> 0 ->
  Z.abs (units g) < Z.abs (ibm_units x) * 2 ^ 1023 ->
  exists q, op_result (units g * unit * Z.sgn (ibm_units x)) (Z.abs (ibm_units x)) q /\
    num_truediv (NFloat g) (NIbm x) = (do w <- q ;; Ok (NIbm w)).
Proof. exact float_truediv. Qed.
Print Assumptions C102_float_truediv_partial.

(* An int counts as the float nearest to it, which up to 2^53 is the int
   itself; an int divided by an IBMFloat is a float. *)
Theorem C102_int : forall x n, word_ok x -> Z.abs n < 2 ^ 1023 -> exists g, rounds_to (n * unit) 1 g /\
  (Z.abs n <= 2 ^ 53 -> units g = n * unit) /\
  num_add (NIbm x) (NInt n) = num_add (NIbm x) (NFloat g) /\ num_add (NInt n) (NIbm x) = num_add (NFloat g) (NIbm x) /\
  num_sub (NIbm x) (NInt n) = num_sub (NIbm x) (NFloat g) /\ num_sub (NInt n) (NIbm x) = num_sub (NFloat g) (NIbm x) /\
  num_mul (NIbm x) (NInt n) = num_mul (NIbm x) (NFloat g) /\ num_mul (NInt n) (NIbm x) = num_mul (NFloat g) (NIbm x) /\
  num_truediv (NIbm x) (NInt n) = num_truediv (NIbm x) (NFloat g) /\
  (ibm_units x <> 0 -> Z.abs (units g) < Z.abs (ibm_units x) * 2 ^ 1023 -> exists r,
     rounds_to (units g * unit * Z.sgn (ibm_units x)) (Z.abs (ibm_units x)) r /\ num_truediv (NInt n) (NIbm x) = Ok (NFloat r)).
Proof. exact int_arithmetic. Qed.
Print Assumptions C102_int.

(* Between two IBMFloats these are the operators of C14. *)
Theorem C102_both_ibm : forall x y,
  num_add (NIbm x) (NIbm y) = (do w <- ibm_add x y ;; Ok (NIbm w)) /\
  num_sub (NIbm x) (NIbm y) = (do w <- ibm_sub x y ;; Ok (NIbm w)) /\
  num_mul (NIbm x) (NIbm y) = (do w <- ibm_mul x y ;; Ok (NIbm w)) /\
  num_truediv (NIbm x) (NIbm y) = (do w <- ibm_truediv x y ;; Ok (NIbm w)).
Proof. exact both_ibm. Qed.
Print Assumptions C102_both_ibm.

(* infinities and NaN behave as between floats *)
Theorem C102_nonfinite : forall x, word_ok x ->
  (forall s, num_add (NIbm x) (NFloat (S754_infinity s)) = Ok (NFloat (S754_infinity s)) /\
     num_add (NFloat (S754_infinity s)) (NIbm x) = Ok (NFloat (S754_infinity s)) /\
     num_sub (NIbm x) (NFloat (S754_infinity s)) = Ok (NFloat (S754_infinity (negb s))) /\
     num_sub (NFloat (S754_infinity s)) (NIbm x) = Ok (NFloat (S754_infinity s)) /\
     num_mul (NIbm x) (NFloat (S754_infinity s)) = Ok (NFloat (if ibm_units x =? 0 then S754_nan else S754_infinity (xorb (ibm_units x <? 0) s))) /\
     exists z, num_truediv (NIbm x) (NFloat (S754_infinity s)) = Ok (NFloat (S754_zero z))) /\
  num_add (NIbm x) (NFloat S754_nan) = Ok (NFloat S754_nan) /\ num_add (NFloat S754_nan) (NIbm x) = Ok (NFloat S754_nan) /\
  num_sub (NIbm x) (NFloat S754_nan) = Ok (NFloat S754_nan) /\ num_sub (NFloat S754_nan) (NIbm x) = Ok (NFloat S754_nan) /\
  num_mul (NIbm x) (NFloat S754_nan) = Ok (NFloat S754_nan) /\ num_mul (NFloat S754_nan) (NIbm x) = Ok (NFloat S754_nan) /\
  num_truediv (NIbm x) (NFloat S754_nan) = Ok (NFloat S754_nan).
Proof. exact nonfinite. Qed.
Print Assumptions C102_nonfinite.

(* 1/3 three ways; 0.1 - IBMFloat(3); IBMFloat(3) * 7 *)
Example C102_example : num_truediv (NIbm (W 65 16 0 0)) (NFloat (S754_finite false 6755399441055744 (-51))) = Ok (NFloat (S754_finite false 6004799503160661 (-54))) /\
  num_truediv (NInt 1) (NIbm (W 65 48 0 0)) = Ok (NFloat (S754_finite false 6004799503160661 (-54))) /\
  num_truediv (NIbm (W 65 16 0 0)) (NIbm (W 65 48 0 0)) = Ok (NIbm (W 64 85 85 85)) /\
  num_sub (NFloat (S754_finite false 7205759403792794 (-56))) (NIbm (W 65 48 0 0)) = Ok (NFloat (S754_finite true 6530219459687219 (-51))) /\
  num_mul (NIbm (W 65 48 0 0)) (NInt 7) = Ok (NFloat (S754_finite false 5910974510923776 (-48))).
Proof. repeat split; vm_compute; reflexivity. Qed.

(* ---------------- C103 ---------------- *)

(* Full property: x // y is the greatest integer not above the exact quotient
   (Z division), and x % y is what remains, on the same side of zero as y and
   smaller than y.  The quotient is rounded to a double first, so a large one
   comes out wrong; and a remainder of a small negative number can round up
   to y. *)
Theorem C103_floordiv_refuted : exists x y n, word_ok x /\ word_ok y /\ ibm_units y <> 0 /\
  num_floordiv (NIbm x) (NIbm y) = Ok (NInt n) /\ n <> ibm_units x / ibm_units y.
Proof. exact floordiv_wrong. Qed.
Print Assumptions C103_floordiv_refuted.

Theorem C103_mod_refuted : exists x y w, word_ok x /\ word_ok y /\ ibm_units y <> 0 /\
  num_mod (NIbm x) (NIbm y) = Ok (NIbm w) /\ ibm_units w = ibm_units y.
Proof. exact mod_not_below. Qed.
Print Assumptions C103_mod_refuted.

(* What holds: the floor is exact for quotients below 2^28; *)
Theorem C103_floordiv_partial : forall x y, word_ok x -> word_ok y -> ibm_units y <> 0 ->
  Z.abs (ibm_units x) < 2 ^ 28 * Z.abs (ibm_units y) ->
  num_floordiv (NIbm x) (NIbm y) = Ok (NInt (ibm_units x / ibm_units y)).
Proof. exact floordiv_small. Qed.
Print Assumptions C103_floordiv_partial.

(* In general the quotient is rounded to the nearest double, of which the floor
   is exact.  This also holds when one operand is a float. *)
Theorem C103_floordiv_exact : forall x y, word_ok x -> word_ok y -> ibm_units y <> 0 ->
  exists r, rounds_to (ibm_units x * unit * Z.sgn (ibm_units y)) (Z.abs (ibm_units y)) r /\
    num_floordiv (NIbm x) (NIbm y) = Ok (NInt (units r / unit)).
Proof. exact floordiv_exact. Qed.
Print Assumptions C103_floordiv_exact.

Theorem C103_floordiv_float : forall x g, word_ok x -> float_wf g -> finite g ->
  (units g <> 0 -> Z.abs (ibm_units x) < Z.abs (units g) * 2 ^ 1023 ->
   exists r, rounds_to (ibm_units x * unit * Z.sgn (units g)) (Z.abs (units g)) r /\
     num_floordiv (NIbm x) (NFloat g) = Ok (NInt (units r / unit))) /\
  (units g = 0 -> num_floordiv (NIbm x) (NFloat g) = Err ZeroDivisionError) /\
  (ibm_units x <> 0 -> Z.abs (units g) < Z.abs (ibm_units x) * 2 ^ 1023 ->
   exists r, rounds_to (units g * unit * Z.sgn (ibm_units x)) (Z.abs (ibm_units x)) r /\
     num_floordiv (NFloat g) (NIbm x) = Ok (NInt (units r / unit))).
Proof. exact floordiv_float. Qed.
Print Assumptions C103_floordiv_float.

Theorem C103_floordiv_nonfinite : forall x, word_ok x ->
  num_floordiv (NIbm x) (NFloat S754_nan) = Err ValueError /\
  (forall s, num_floordiv (NIbm x) (NFloat (S754_infinity s)) = Ok (NInt 0)) /\
  (ibm_units x <> 0 -> num_floordiv (NFloat S754_nan) (NIbm x) = Err ValueError /\
     forall s, num_floordiv (NFloat (S754_infinity s)) (NIbm x) = Err OverflowError).
Proof. exact floordiv_nonfinite. Qed.
Print Assumptions C103_floordiv_nonfinite.

(* the remainder is exact when the operands have the same sign; *)
Theorem C103_mod_partial : forall x y, word_ok x -> word_ok y -> ibm_units y <> 0 -> 0 <= ibm_units x * ibm_units y ->
  exists w, num_mod (NIbm x) (NIbm y) = Ok (NIbm w) /\ word_ok w /\ ibm_units w = ibm_units x mod ibm_units y.
Proof. exact mod_exact. Qed.
Print Assumptions C103_mod_partial.

(* in general it is rounded as the other operations are; *)
Theorem C103_mod_rounded : forall x y, word_ok x -> word_ok y -> ibm_units y <> 0 ->
  exists w, num_mod (NIbm x) (NIbm y) = Ok (NIbm w) /\ op_result (ibm_units x mod ibm_units y) 1 (Ok w).
Proof. exact mod_result. Qed.
Print Assumptions C103_mod_rounded.

(* with a float on one side it is the nearest float; *)
Theorem C103_mod_by_float : forall x g, word_ok x -> float_wf g -> finite g -> units g <> 0 -> Z.abs (units g) < 2 ^ 2097 ->
  exists r, num_mod (NIbm x) (NFloat g) = Ok (NFloat r) /\ rounds_to (ibm_units x mod units g) 1 r.
Proof. exact mod_float. Qed.
Print Assumptions C103_mod_by_float.

Theorem C103_mod_of_float : forall g y, word_ok y -> float_wf g -> finite g -> ibm_units y <> 0 -> Z.abs (units g) < 2 ^ 2097 ->
  exists r, num_mod (NFloat g) (NIbm y) = Ok (NFloat r) /\ rounds_to (units g mod ibm_units y) 1 r.
Proof. exact float_mod. Qed.
Print Assumptions C103_mod_of_float.

(* the remainder of dividing by an infinite float is the number itself if it has
   the sign of the divisor and otherwise the divisor; *)
Theorem C103_mod_by_infinity : forall x s, word_ok x ->
  (ibm_units x = 0 -> num_mod (NIbm x) (NFloat (S754_infinity s)) = Ok (NFloat (S754_zero s))) /\
  (ibm_units x <> 0 -> (ibm_units x < 0 <-> s = true) ->
     exists r, num_mod (NIbm x) (NFloat (S754_infinity s)) = Ok (NFloat r) /\ finite r /\ units r = ibm_units x) /\
  (ibm_units x <> 0 -> ~ (ibm_units x < 0 <-> s = true) ->
     num_mod (NIbm x) (NFloat (S754_infinity s)) = Ok (NFloat (S754_infinity s))).
Proof. exact mod_infinity. Qed.
Print Assumptions C103_mod_by_infinity.

(* and dividing anything by a zero of any exponent is ZeroDivisionError. *)
Theorem C103_by_zero : forall x y n, word_ok x -> word_ok y -> ibm_units y = 0 ->
  (n = NIbm x \/ (exists f, n = NFloat f) \/ exists i, n = NInt i /\ Z.abs i <= 2 ^ 53) ->
  num_truediv n (NIbm y) = Err ZeroDivisionError /\
  num_floordiv n (NIbm y) = Err ZeroDivisionError /\ num_mod n (NIbm y) = Err ZeroDivisionError.
Proof. exact division_by_zero. Qed.
Print Assumptions C103_by_zero.

(* 118.625 // -1.0 and 1024.0 // 118.625 *)
Example C103_floordiv_example : num_floordiv (NIbm (W 66 118 160 0)) (NFloat (S754_finite true 4503599627370496 (-52))) = Ok (NInt (-119)) /\
  num_floordiv (NFloat (S754_finite false 4503599627370496 (-42))) (NIbm (W 66 118 160 0)) = Ok (NInt 8).
Proof. split; vm_compute; reflexivity. Qed.

(* -118.625 // 3 = -40, -118.625 % 3 = 1.375, 118.625 % 3 = 1.625, and a
   quotient just below 2^28 *)
Example C103_example : num_floordiv (NIbm (W 194 118 160 0)) (NIbm (W 65 48 0 0)) = Ok (NInt (-40)) /\
  num_mod (NIbm (W 194 118 160 0)) (NIbm (W 65 48 0 0)) = Ok (NIbm (W 65 22 0 0)) /\
  num_mod (NIbm (W 66 118 160 0)) (NIbm (W 65 48 0 0)) = Ok (NIbm (W 65 26 0 0)) /\
  num_floordiv (NIbm (W 71 255 255 255)) (NIbm (W 65 16 0 1)) = Ok (NInt 268435184).
Proof. repeat split; vm_compute; reflexivity. Qed.

(* ---------------- C104 ---------------- *)

Theorem C104_round : forall w, word_ok w -> exists n w', ibm_round w = Ok w' /\ word_ok w' /\
  ibm_units w' = n * unit /\ nearest_integer (ibm_units w) n.
Proof. exact round_nearest. Qed.
Print Assumptions C104_round.

(* 118.625, -118.625, 2.5, 3.5, 0.25, an integer *)
Example C104_example : ibm_round (W 66 118 160 0) = Ok (W 66 119 0 0) /\ ibm_round (W 194 118 160 0) = Ok (W 194 119 0 0) /\
  ibm_round (W 65 40 0 0) = Ok (W 65 32 0 0) /\ ibm_round (W 65 56 0 0) = Ok (W 65 64 0 0) /\
  ibm_round (W 64 64 0 0) = Ok IBM_ZERO /\ ibm_round (W 74 18 52 86) = Ok (W 74 18 52 86).
Proof. repeat split; vm_compute; reflexivity. Qed.

(* ---------------- C105 ---------------- *)

(* Full property: <, <=, > and >= between an IBMFloat and an int or a float, in
   either order, compare the exact values.  An int is rounded to a double
   first: beyond 2^53 two different numbers may be neither smaller nor
   larger nor equal, and beyond the doubles the comparison fails. *)
Theorem C105_int_refuted : exists x n, word_ok x /\ ibm_units x < n * unit /\
  num_lt (NIbm x) (NInt n) = Ok false /\ num_gt (NIbm x) (NInt n) = Ok false /\ ibm_eq_rational x n 1 = false.
Proof. exact order_int_wrong. Qed.
Print Assumptions C105_int_refuted.

Theorem C105_int_error_refuted : exists x n, word_ok x /\ ibm_units x < n * unit /\ num_lt (NIbm x) (NInt n) = Err OverflowError.
Proof. exact order_int_fails. Qed.
Print Assumptions C105_int_error_refuted.

(* What holds: floats, *)
Theorem C105_float : forall x g, word_ok x -> float_wf g -> finite g ->
  num_lt (NIbm x) (NFloat g) = Ok (ibm_units x <? units g) /\ num_le (NIbm x) (NFloat g) = Ok (ibm_units x <=? units g) /\
  num_gt (NIbm x) (NFloat g) = Ok (units g <? ibm_units x) /\ num_ge (NIbm x) (NFloat g) = Ok (units g <=? ibm_units x) /\
  num_lt (NFloat g) (NIbm x) = Ok (units g <? ibm_units x) /\ num_le (NFloat g) (NIbm x) = Ok (units g <=? ibm_units x) /\
  num_gt (NFloat g) (NIbm x) = Ok (ibm_units x <? units g) /\ num_ge (NFloat g) (NIbm x) = Ok (ibm_units x <=? units g).
Proof. exact order_float. Qed.
Print Assumptions C105_float.

(* infinities and NaN, *)
Theorem C105_nonfinite : forall x, word_ok x ->
  (forall s, num_lt (NIbm x) (NFloat (S754_infinity s)) = Ok (negb s) /\ num_le (NIbm x) (NFloat (S754_infinity s)) = Ok (negb s) /\
     num_gt (NIbm x) (NFloat (S754_infinity s)) = Ok s /\ num_ge (NIbm x) (NFloat (S754_infinity s)) = Ok s) /\
  num_lt (NIbm x) (NFloat S754_nan) = Ok false /\ num_le (NIbm x) (NFloat S754_nan) = Ok false /\
  num_gt (NIbm x) (NFloat S754_nan) = Ok false /\ num_ge (NIbm x) (NFloat S754_nan) = Ok false.
Proof. exact order_nonfinite. Qed.
Print Assumptions C105_nonfinite.

(* ints up to 2^53, *)
Theorem C105_int_partial : forall x n, word_ok x -> Z.abs n <= 2 ^ 53 ->
  num_lt (NIbm x) (NInt n) = Ok (ibm_units x <? n * unit) /\ num_le (NIbm x) (NInt n) = Ok (ibm_units x <=? n * unit) /\
  num_gt (NIbm x) (NInt n) = Ok (n * unit <? ibm_units x) /\ num_ge (NIbm x) (NInt n) = Ok (n * unit <=? ibm_units x) /\
  num_lt (NInt n) (NIbm x) = Ok (n * unit <? ibm_units x) /\ num_le (NInt n) (NIbm x) = Ok (n * unit <=? ibm_units x) /\
  num_gt (NInt n) (NIbm x) = Ok (ibm_units x <? n * unit) /\ num_ge (NInt n) (NIbm x) = Ok (ibm_units x <=? n * unit).
Proof. exact order_int. Qed.
Print Assumptions C105_int_partial.

(* and for larger ints one direction: "smaller" and "larger" are never
   claimed wrongly, "at most" and "at least" never denied wrongly. *)
Theorem C105_large_int_partial : forall x n, word_ok x -> Z.abs n < 2 ^ 1023 ->
  (num_lt (NIbm x) (NInt n) = Ok true -> ibm_units x < n * unit) /\
  (num_gt (NIbm x) (NInt n) = Ok true -> n * unit < ibm_units x) /\
  (ibm_units x <= n * unit -> num_le (NIbm x) (NInt n) = Ok true) /\
  (n * unit <= ibm_units x -> num_ge (NIbm x) (NInt n) = Ok true).
Proof. exact order_int_sound. Qed.
Print Assumptions C105_large_int_partial.

(* The outcome for every int: below 2^1023 the comparison with the nearest
   double, which from 2^252 on (beyond all IBM floats) is right; beyond the
   doubles OverflowError. *)
Theorem C105_int_exact : forall x n, word_ok x ->
  (Z.abs n < 2 ^ 1023 -> exists g, rounds_to (n * unit) 1 g /\ ordered_as (NIbm x) (NInt n) (ibm_units x) (units g)) /\
  (2 ^ 252 <= Z.abs n -> ordered_as (NIbm x) (NInt n) (ibm_units x) (n * unit) \/
     (2 ^ 1023 <= Z.abs n /\ order_fails (NIbm x) (NInt n) OverflowError)) /\
  (2 ^ 1024 <= Z.abs n -> order_fails (NIbm x) (NInt n) OverflowError).
Proof.
  intros x n Hx. split; [exact (order_int_rounds x n Hx)|]. split; [exact (order_int_beyond x n Hx)|exact (order_int_huge x n Hx)].
Qed.
Print Assumptions C105_int_exact.

(* an int of 1024 bits can be compared, one of 1025 bits cannot *)
Example C105_int_exact_example : num_lt (NIbm (W 66 118 160 0)) (NInt (2 ^ 1023)) = Ok true /\
  num_lt (NIbm (W 66 118 160 0)) (NInt (2 ^ 1024)) = Err OverflowError.
Proof. split; vm_compute; reflexivity. Qed.

Example C105_example : num_lt (NIbm (W 194 118 160 0)) (NInt (-118)) = Ok true /\ num_ge (NInt (-118)) (NIbm (W 194 118 160 0)) = Ok true /\
  num_gt (NFloat (S754_finite false 7205759403792794 (-56))) (NIbm (W 64 25 153 153)) = Ok true /\
  num_le (NIbm (W 65 16 0 0)) (NInt 1) = Ok true.
Proof. repeat split; vm_compute; reflexivity. Qed.
