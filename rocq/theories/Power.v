(* segpy/ibm_float.py:449-467: powers of IBMFloats.  No proofs here. *)
From Coq Require Import ZArith List Bool.
From Verif Require Import Py PyFloat IbmFloat IbmNumber AlmostEqual.
Import ListNotations.
Open Scope Z_scope.

(* What ** gives: a number or a complex number.
   [ibm_float.py:452-458] *)
Inductive power := PNumber (x : number) | PComplex (re im : float).

Definition f_one : float := f_pow2 0.
(* iw == floor(iw), for a finite float
   [ibm_float.py:452, pow of floats] *)
Definition f_is_integer (f : float) : bool := f_scaled f mod 2 ^ 1074 =? 0.
(* fmod(fabs(iw), 2.0) == 1.0, for a finite float
   [ibm_float.py:452, pow of floats] *)
Definition f_is_odd (f : float) : bool := Z.abs (f_scaled f) mod 2 ^ 1075 =? 2 ^ 1074.

Section Power.
(* C's pow for a positive finite base other than 1 and a finite exponent other than 0:
   OverflowError if it sets errno. *)
Variable c_pow : float -> float -> res float.
(* The power of a negative base to a fractional exponent, which Python computes with
   complex numbers.  Both functions are parameters: the theorems hold for
   every implementation of them, or say what they need. *)
Variable complex_pow : float -> float -> res (float * float).

(* pow(x, y) of two floats (CPython float_pow)
   [ibm_float.py:452, 463] *)
Definition float_pow (x y : float) : res power :=
  let real f := PNumber (NFloat f) in
  if f_is_zero y then Ok (real f_one)
  else if f_isnan x then Ok (real x)
  else if f_isnan y then Ok (real (if f_eq x f_one then f_one else y))
  else if f_isinf y then
    let x := f_abs x in
    if f_eq x f_one then Ok (real f_one)
    else if Bool.eqb (f_lt (S754_zero false) y) (f_lt f_one x) then Ok (real (f_abs y))
    else Ok (real (S754_zero false))
  else if f_isinf x then
    let odd := f_is_odd y in
    if f_lt (S754_zero false) y then Ok (real (if odd then x else f_abs x))
    else Ok (real (S754_zero (odd && f_lt x (S754_zero false))))
  else if f_is_zero x then
    if f_lt y (S754_zero false) then Err ZeroDivisionError
    else Ok (real (if f_is_odd y then x else S754_zero false))
  else
    let negative := f_lt x (S754_zero false) in
    if negative && negb (f_is_integer y) then do (re, im) <- complex_pow x y ;; Ok (PComplex re im)
    else
      let x := if negative then SFopp x else x in
      let negate := negative && f_is_odd y in
      if f_eq x f_one then Ok (real (if negate then SFopp f_one else f_one))
      else do r <- c_pow x y ;; Ok (real (if negate then SFopp r else r)).

(* ibm_float.py:449-458 __pow__; the comparison of a complex number with 0 succeeds, isnan
   of one raises TypeError *)
Definition ibm_pow (self : word) (exponent : number) : res power :=
  do a <- ibm_float self ;;
  do b <- num_float exponent ;;
  do p <- float_pow a b ;;
  match p with
  | PNumber (NFloat f) =>
      if is_ibm exponent then do w <- from_float_without_underflow f ;; Ok (PNumber (NIbm w)) else Ok p
  | PNumber _ => Ok p
  | PComplex re im =>
      if negb (f_eq im (S754_zero false)) then Ok p
      else if is_ibm exponent then
        if f_is_zero re then Ok (PNumber (NIbm IBM_ZERO)) else Err TypeError
      else Ok p
  end.

(* ibm_float.py:460-467 __rpow__ *)
Definition ibm_rpow (self : word) (base : number) : res power :=
  do a <- num_float base ;; do b <- ibm_float self ;; float_pow a b.

(* x ** y, one of them an IBMFloat
   [ibm_float.py:449-467] *)
Definition num_pow (x y : number) : res power :=
  match x, y with
  | NIbm w, _ => ibm_pow w y
  | _, NIbm w => ibm_rpow w x
  | _, _ => Err TypeError
  end.
End Power.
