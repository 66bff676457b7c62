(* Comparing two floats for being almost equal.  [util.py:300-304] *)
From Coq Require Import ZArith List Bool.
From Coq Require Import Floats.SpecFloat.
From Verif Require Import Py PyFloat.
Open Scope Z_scope.

(* abs(x) of a float
   [util.py:301, 303] *)
Definition f_abs : float -> float := SFabs.

(* max(a, b, c): the first argument is kept unless a later one is greater.
   [util.py:301] *)
Definition f_max2 (a b : float) : float := if f_lt a b then b else a.
(* [util.py:301] *)
Definition f_max3 (a b c : float) : float := f_max2 (f_max2 a b) c.

(* sys.float_info.epsilon
   [util.py:300] *)
Definition float_epsilon : float := f_pow2 (-52).

(* [ibm_float.py:17-18] *)
Definition EPSILON_IBM_FLOAT : float := f_pow2 (- (21 - 1)).

(* Both arguments are Python floats; an epsilon that is left out is [None].
   [util.py:300-304, almost_equal] *)
Definition almost_equal (x y : float) (epsilon : option float) : bool :=
  let epsilon := match epsilon with Some e => e | None => float_epsilon end in
  let max_xy_one := f_max3 (f_pow2 0) (f_abs x) (f_abs y) in
  let e := f_mul epsilon max_xy_one in
  let delta := f_abs (f_sub x y) in
  f_le delta e.
