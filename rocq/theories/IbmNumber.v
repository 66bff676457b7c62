(* segpy/ibm_float.py:431-543: an IBMFloat together with the other Python
   numbers.  No proofs here. *)
From Coq Require Import ZArith List Bool.
From Verif Require Import Py PyFloat IbmFloat.
Import ListNotations.
Open Scope Z_scope.

(* The numbers an operator may be given: int, float and IBMFloat (complex,
   Fraction and Decimal operands are left out).
   [ibm_float.py:437-510, the types the methods distinguish] *)
Inductive number := NInt (n : Z) | NFloat (f : float) | NIbm (w : word).

(* float(x)
   [ibm_float.py:432, 440, 446; 224-225 for an IBMFloat] *)
Definition num_float (x : number) : res float :=
  match x with
  | NInt n => f_of_int n
  | NFloat f => Ok f
  | NIbm w => ibm_float w
  end.

(* [ibm_float.py:441, isinstance(rhs, IBMFloat)] *)
Definition is_ibm (x : number) : bool := match x with NIbm _ => true | _ => false end.
(* [ibm_float.py:447, isinstance(lhs, float)] *)
Definition is_float (x : number) : bool := match x with NFloat _ => true | _ => false end.

(* "from_float_without_underflow(p) if <test> else p"
   [ibm_float.py:441, 447, 472, 482, 494, 505] *)
Definition ibm_if (test : bool) (p : float) : res number :=
  if test then do w <- from_float_without_underflow p ;; Ok (NIbm w) else Ok (NFloat p).

(* math.floor of a float
   [ibm_float.py:432, 435] *)
Definition f_floor (f : float) : res Z :=
  match f with
  | S754_nan => Err ValueError
  | S754_infinity _ => Err OverflowError
  | S754_zero _ => Ok 0
  | S754_finite s m e =>
      let n := if s then Zneg m else Zpos m in
      Ok (if 0 <=? e then n * 2 ^ e else n / 2 ^ (- e))
  end.

(* a finite float as an integer number of 2^-1074, the spacing of the
   smallest doubles
   [ibm_float.py:471, used for fmod] *)
Definition f_scaled (f : float) : Z :=
  match f with
  | S754_finite s m e => (if s then Zneg m else Zpos m) * 2 ^ (e + 1074)
  | _ => 0
  end.

(* C's fmod, on which % of floats is built: the remainder of the quotient
   rounded toward zero, which is always a double
   [ibm_float.py:471, 476] *)
Definition f_fmod (x y : float) : float :=
  match x, y with
  | S754_nan, _ | _, S754_nan | S754_infinity _, _ | _, S754_zero _ => S754_nan
  | S754_zero s, _ => S754_zero s
  | S754_finite _ _ _, S754_infinity _ => x
  | S754_finite s _ _, S754_finite _ _ _ =>
      binary_normalize 53 1024 (Z.rem (f_scaled x) (f_scaled y)) (-1074) s
  end.

(* x % y of floats (CPython float_rem): fmod, then the divisor is added when
   the signs differ; a zero result takes the sign of the divisor
   [ibm_float.py:471, 476] *)
Definition f_mod (x y : float) : res float :=
  if f_is_zero y then Err ZeroDivisionError
  else
    let m := f_fmod x y in
    if f_is_zero m then Ok (S754_zero (f_lt y (S754_zero false)))
    else if Bool.eqb (f_lt y (S754_zero false)) (f_lt m (S754_zero false)) then Ok m
    else Ok (f_add m y).

(* round(f): the nearest int, an even one in a tie
   [ibm_float.py:543, round(float(self), None)] *)
Definition f_round (f : float) : res Z :=
  match f with
  | S754_nan => Err ValueError
  | S754_infinity _ => Err OverflowError
  | S754_zero _ => Ok 0
  | S754_finite s m e =>
      let mag :=
        if 0 <=? e then Zpos m * 2 ^ e
        else
          let d := 2 ^ (- e) in
          let q := Zpos m / d in
          let r := Zpos m mod d in
          if 2 * r <? d then q else if d <? 2 * r then q + 1 else if Z.even q then q else q + 1 in
      Ok (if s then - mag else mag)
  end.

(* The binary operators.  A method of an IBMFloat on the left is called with
   the right operand; int and float do not know IBMFloat, so with one of these
   on the left Python calls the reflected method of the IBMFloat on the right.
   Operators between int and float are Python's own and are not modelled. *)
Definition operator (left right : word -> number -> res number) (x y : number) : res number :=
  match x, y with
  | NIbm w, _ => left w y
  | _, NIbm w => right w x
  | _, _ => Err TypeError
  end.

(* ibm_float.py:490-494 __add__ *)
Definition ibm_add_num (self : word) (rhs : number) : res number :=
  do a <- ibm_float self ;; do b <- num_float rhs ;; ibm_if (is_ibm rhs) (f_add a b).
(* ibm_float.py:496-499 __radd__ *)
Definition ibm_radd (self : word) (lhs : number) : res number :=
  do a <- num_float lhs ;; do b <- ibm_float self ;; Ok (NFloat (f_add a b)).
(* x + y [ibm_float.py:490-499] *)
Definition num_add := operator ibm_add_num ibm_radd.

(* ibm_float.py:501-505 __sub__ *)
Definition ibm_sub_num (self : word) (rhs : number) : res number :=
  do a <- ibm_float self ;; do b <- num_float rhs ;; ibm_if (is_ibm rhs) (f_sub a b).
(* ibm_float.py:507-510 __rsub__ *)
Definition ibm_rsub (self : word) (lhs : number) : res number :=
  do a <- num_float lhs ;; do b <- ibm_float self ;; Ok (NFloat (f_sub a b)).
(* x - y [ibm_float.py:501-510] *)
Definition num_sub := operator ibm_sub_num ibm_rsub.

(* ibm_float.py:478-482 __mul__ *)
Definition ibm_mul_num (self : word) (rhs : number) : res number :=
  do a <- ibm_float self ;; do b <- num_float rhs ;; ibm_if (is_ibm rhs) (f_mul a b).
(* ibm_float.py:484-488 __rmul__; only reached when lhs is not an IBMFloat *)
Definition ibm_rmul (self : word) (lhs : number) : res number :=
  do a <- num_float lhs ;; do b <- ibm_float self ;; Ok (NFloat (f_mul a b)).
(* x * y [ibm_float.py:478-488] *)
Definition num_mul := operator ibm_mul_num ibm_rmul.

(* ibm_float.py:437-441 __truediv__ *)
Definition ibm_truediv_num (self : word) (rhs : number) : res number :=
  do a <- ibm_float self ;; do b <- num_float rhs ;; do q <- f_div a b ;; ibm_if (is_ibm rhs) q.
(* ibm_float.py:443-447 __rtruediv__ *)
Definition ibm_rtruediv (self : word) (lhs : number) : res number :=
  do a <- num_float lhs ;; do b <- ibm_float self ;; do q <- f_div a b ;; ibm_if (is_float lhs) q.
(* x / y [ibm_float.py:437-447] *)
Definition num_truediv := operator ibm_truediv_num ibm_rtruediv.

(* ibm_float.py:431-432 __floordiv__ *)
Definition ibm_floordiv (self : word) (rhs : number) : res number :=
  do a <- ibm_float self ;; do b <- num_float rhs ;; do q <- f_div a b ;; do n <- f_floor q ;; Ok (NInt n).
(* ibm_float.py:434-435 __rfloordiv__ *)
Definition ibm_rfloordiv (self : word) (lhs : number) : res number :=
  do a <- num_float lhs ;; do b <- ibm_float self ;; do q <- f_div a b ;; do n <- f_floor q ;; Ok (NInt n).
(* x // y [ibm_float.py:431-435] *)
Definition num_floordiv := operator ibm_floordiv ibm_rfloordiv.

(* ibm_float.py:469-472 __mod__ *)
Definition ibm_mod_num (self : word) (rhs : number) : res number :=
  do a <- ibm_float self ;; do b <- num_float rhs ;; do p <- f_mod a b ;; ibm_if (is_ibm rhs) p.
(* ibm_float.py:474-476 __rmod__ *)
Definition ibm_rmod (self : word) (lhs : number) : res number :=
  do a <- num_float lhs ;; do b <- ibm_float self ;; do p <- f_mod a b ;; Ok (NFloat p).
(* x % y [ibm_float.py:469-476] *)
Definition num_mod := operator ibm_mod_num ibm_rmod.

(* ibm_float.py:540-543 __round__ without a number of digits: round(f, None) is
   an int, which ieee2ibm converts.  Rounding to decimal digits is in
   Digits.v. *)
Definition ibm_round (self : word) : res word :=
  do f <- ibm_float self ;; do n <- f_round f ;;
  match ieee2ibm_int n with Err FloatingPointError => Ok IBM_ZERO | r => r end.

(* The order comparisons.  int and float do not know IBMFloat either: x < y with
   the IBMFloat on the right is y > x.
   [ibm_float.py:512-530] *)
Definition comparison (left right : float -> float -> bool) (x y : number) : res bool :=
  match x, y with
  | NIbm w, _ => do a <- ibm_float w ;; do b <- num_float y ;; Ok (left a b)
  | _, NIbm w => do b <- ibm_float w ;; do a <- num_float x ;; Ok (right b a)
  | _, _ => Err TypeError
  end.
(* x < y: __lt__ or the reflected __gt__ [ibm_float.py:512-515, 522-525] *)
Definition num_lt := comparison f_lt (fun b a => f_lt a b).
(* x <= y: __le__ or the reflected __ge__ [ibm_float.py:517-520, 527-530] *)
Definition num_le := comparison f_le (fun b a => f_le a b).
(* x > y: __gt__ or the reflected __lt__ [ibm_float.py:522-525, 512-515] *)
Definition num_gt := comparison (fun a b => f_lt b a) f_lt.
(* x >= y: __ge__ or the reflected __le__ [ibm_float.py:527-530, 517-520] *)
Definition num_ge := comparison (fun a b => f_le b a) f_le.
