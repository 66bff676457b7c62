(* Specification used in the statements about floats and IBM floats.
   Every finite double is an integer multiple of 2^-1074 and every IBM
   single-precision value one of 2^-280, so numeric values are given exactly
   as integers in units of 2^-1074. *)
From Coq Require Import ZArith List Bool.
From Verif Require Import Py PyFloat IbmFloat.
Import ListNotations.
Open Scope Z_scope.

(* finite doubles *)
Definition finite (f : float) : Prop :=
  match f with S754_zero _ => True | S754_finite _ _ _ => True | _ => False end.

(* value(f) * 2^1074 *)
Definition units (f : float) : Z :=
  match f with
  | S754_finite s m e => (if s then -1 else 1) * (Zpos m * 2 ^ (e + 1074))
  | _ => 0
  end.

(* the double is the number num / den * 2^0 *)
Definition unit : Z := 2 ^ 1074.

(* Four bytes. *)
Definition word_ok (w : word) : Prop :=
  0 <= w0 w < 256 /\ 0 <= w1 w < 256 /\ 0 <= w2 w < 256 /\ 0 <= w3 w < 256.

(* The layout of an IBM single: sign bit, seven exponent bits E, 24 mantissa
   bits M; its value is (-1)^sign * M/2^24 * 16^(E-64). *)
Definition ibm_sign (w : word) : Z := if w0 w <? 128 then 1 else -1.
Definition ibm_E (w : word) : Z := w0 w mod 128.
Definition ibm_M (w : word) : Z := (w1 w * 256 + w2 w) * 256 + w3 w.
(* (-1)^s * M * 2^-24 * 2^(4*(E-64)) * 2^1074 *)
Definition ibm_units (w : word) : Z := ibm_sign w * (ibm_M w * 2 ^ (-24 + 4 * (ibm_E w - 64) + 1074)).

(* leading hexadecimal digit of the mantissa non-zero, or the all-zero word *)
Definition canonical (w : word) : Prop := w = IBM_ZERO \/ 2 ^ 20 <= ibm_M w.

(* w is the IBM single obtained from the number v (in units) by dropping the
   digits that do not fit: same sign, no larger in magnitude, and no IBM
   single lies strictly between. *)
Definition truncation (v : Z) (w : word) : Prop :=
  word_ok w /\ (0 <= v -> 0 <= ibm_units w) /\ (v <= 0 -> ibm_units w <= 0) /\
  Z.abs (ibm_units w) <= Z.abs v /\
  forall w', word_ok w' -> Z.abs (ibm_units w') <= Z.abs v -> Z.abs (ibm_units w') <= Z.abs (ibm_units w).

(* Limits of the format, in units: the largest value (1 - 16^-6) * 16^63, the
   smallest normal 16^-65 and the smallest non-zero value 16^-70. *)
Definition ibm_max : Z := (2 ^ 24 - 1) * 2 ^ (-24 + 4 * 63 + 1074).
Definition ibm_min_normal : Z := 2 ^ (-4 * 65 + 1074).
Definition ibm_min : Z := 2 ^ (-4 * 70 + 1074).

(* IEEE 754 round to nearest, ties to even: r is the correct rounding of the
   number N / D (in units). *)
Definition even_significand (f : float) : Prop :=
  match f with S754_finite _ m _ => Z.even (Zpos m) = true | _ => True end.
Definition rounds_to (N D : Z) (r : float) : Prop :=
  float_wf r /\ finite r /\
  forall g, float_wf g -> finite g ->
    Z.abs (units r * D - N) <= Z.abs (units g * D - N) /\
    (Z.abs (units r * D - N) = Z.abs (units g * D - N) -> units g <> units r -> even_significand r).

(* non-zero and below the smallest normal value *)
Definition tiny (w : word) : Prop := 0 < Z.abs (ibm_units w) < ibm_min_normal.

(* n / d is the reduced fraction with the value u (in units) *)
Definition reduced_fraction (u n d : Z) : Prop :=
  0 < d /\ Z.gcd n d = 1 /\ n * 2 ^ 1074 = u * d.

(* a byte string *)
Definition byte_list (l : list Z) : Prop := Forall (fun b => 0 <= b < 256) l.

(* The outcome of an IBM operation whose exact result is N / D (in units): the
   IBM truncation of the correctly rounded double, zero on underflow,
   OverflowError exactly when the double is above the largest IBM value. *)
Definition op_result (N D : Z) (res : res word) : Prop :=
  exists r, rounds_to N D r /\
    (Z.abs (units r) <= ibm_max -> exists w, res = Ok w /\ truncation (units r) w /\
       (Z.abs (units r) < ibm_min -> w = IBM_ZERO)) /\
    (ibm_max < Z.abs (units r) -> res = Err OverflowError).

