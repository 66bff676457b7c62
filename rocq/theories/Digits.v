(* Rounding to decimal digits: round(x, n) of ibm_float.py:540-543, where the
   work is done by round(f, n) of floats.  Simplified: n is an int. *)
From Coq Require Import ZArith Bool SpecFloat.
From Verif Require Import Py PyFloat IbmFloat.
Open Scope Z_scope.

(* the integer nearest to a / b, an even one in a tie
   [round(float(self), ndigits), ibm_float.py:543] *)
Definition div_even (a b : Z) : Z :=
  let q := a / b in let r := a mod b in
  if 2 * r <? b then q else if b <? 2 * r then q + 1 else if Z.even q then q else q + 1.
(* the double nearest to n / d, with this sign
   [round(float(self), ndigits), ibm_float.py:543] *)
Definition f_ratio (s : bool) (n d : Z) : float :=
  match n, d with
  | Zpos _, Zpos _ => let '(q, e, l) := SFdiv_core_binary 53 1024 n 0 d 0 in binary_round_aux 53 1024 s q e l
  | _, _ => S754_zero s
  end.
(* round(f, n): f rounded to n decimal digits, as a double.  CPython does not try
   when n is out of the range of its doubles.
   [round(float(self), ndigits), ibm_float.py:543] *)
Definition f_round_digits (f : float) (n : Z) : res float :=
  match f with
  | S754_finite s m e =>
      if 323 <? n then Ok f
      else if n <? -308 then Ok (S754_zero s)
      else
        let up := 10 ^ Z.max n 0 in
        let down := 10 ^ Z.max (- n) 0 in
        let k := div_even (Zpos m * 2 ^ Z.max e 0 * up) (2 ^ Z.max (- e) 0 * down) in
        match f_ratio s (k * down) up with
        | S754_infinity _ => Err OverflowError
        | r => Ok r
        end
  | _ => Ok f
  end.
(* ibm_float.py:540-543 __round__ with a number of digits *)
Definition ibm_round_digits (self : word) (n : Z) : res word :=
  do f <- ibm_float self ;; do p <- f_round_digits f n ;; from_float_without_underflow p.
