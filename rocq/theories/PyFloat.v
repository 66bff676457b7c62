(* Python floats: IEEE 754 binary64 values and operations, taken from the
   standard library's SpecFloat.  No proofs here. *)
From Coq Require Import ZArith List Bool.
From Coq Require Export SpecFloat.
From Verif Require Import Py.
Import ListNotations.
Open Scope Z_scope.

(* A Python float.  NaN has no payload here. *)
Notation float := spec_float.
Notation fprec := 53 (only parsing).
Notation femax := 1024 (only parsing).

(* every spec_float that is a binary64 datum
   [ibm_float.py:56, the values float objects have] *)
Definition float_wf (f : float) : Prop := valid_binary 53 1024 f = true.

(* [+, ibm_float.py:493] *)
Definition f_add : float -> float -> float := SFadd 53 1024.
(* [-, ibm_float.py:504] *)
Definition f_sub : float -> float -> float := SFsub 53 1024.
(* [*, ibm_float.py:49, 481] *)
Definition f_mul : float -> float -> float := SFmul 53 1024.
(* [<, ibm_float.py:81, 515] *)
Definition f_lt : float -> float -> bool := SFltb.
(* [<=, ibm_float.py:210, 520] *)
Definition f_le : float -> float -> bool := SFleb.
(* [==, ibm_float.py:71, 312] *)
Definition f_eq : float -> float -> bool := SFeqb.

(* [ibm_float.py:440, a zero divisor] *)
Definition f_is_zero (f : float) : bool :=
  match f with S754_zero _ => true | _ => false end.
(* math.isnan, math.isinf
   [ibm_float.py:75] *)
Definition f_isnan (f : float) : bool := match f with S754_nan => true | _ => false end.
(* [ibm_float.py:78] *)
Definition f_isinf (f : float) : bool := match f with S754_infinity _ => true | _ => false end.

(* x / y: Python raises instead of returning an infinity or NaN
   [ibm_float.py:47, 440] *)
Definition f_div (x y : float) : res float :=
  if f_is_zero y then Err ZeroDivisionError else Ok (SFdiv 53 1024 x y).

(* float(n): round to nearest even; OverflowError beyond the largest double
   [ibm_float.py:47, 101] *)
Definition f_of_int (n : Z) : res float :=
  match binary_normalize 53 1024 n 0 false with
  | S754_infinity _ => Err OverflowError
  | f => Ok f
  end.

(* 2.0 ** k for the k used by the modelled code, where it is exact
   [ibm_float.py:20, 49, 216] *)
Definition f_pow2 (k : Z) : float := binary_normalize 53 1024 1 k false.

(* math.frexp (the exponent of a zero is 0 in Python; the code never asks)
   [ibm_float.py:96] *)
Definition f_frexp (f : float) : float * Z := SFfrexp 53 1024 f.

(* int(f): truncation toward zero
   [ibm_float.py:101, 383] *)
Definition f_int (f : float) : res Z :=
  match f with
  | S754_nan => Err ValueError
  | S754_infinity _ => Err OverflowError
  | S754_zero _ => Ok 0
  | S754_finite s m e =>
      let mag := if 0 <=? e then Zpos m * 2 ^ e else Zpos m / 2 ^ (- e) in
      Ok (if s then - mag else mag)
  end.

(* f.as_integer_ratio(): the reduced fraction (CPython finds it by repeated
   doubling; here it is computed with gcd)
   [ibm_float.py:314] *)
Definition f_as_integer_ratio (f : float) : res (Z * Z) :=
  match f with
  | S754_nan => Err ValueError
  | S754_infinity _ => Err OverflowError
  | S754_zero _ => Ok (0, 1)
  | S754_finite s m e =>
      let num := if 0 <=? e then Zpos m * 2 ^ e else Zpos m in
      let den := if 0 <=? e then 1 else 2 ^ (- e) in
      let g := Z.gcd num den in
      Ok ((if s then - (num / g) else num / g), den / g)
  end.
