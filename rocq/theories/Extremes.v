(* Extremes, order and totals of IBM floats, through the operators of IBMFloat. *)
From Coq Require Import ZArith List Bool.
From Verif Require Import Py PyFloat IbmFloat IbmNumber.
Import ListNotations.
Open Scope Z_scope.

(* min(x, y) of two IBMFloats (CPython min_max): y when y < x, else x, the
   first one [util.py:235, ibm_float.py:512-515] *)
Definition ibm_min (x y : word) : res word :=
  do b <- ibm_lt y x ;; Ok (if b : bool then y else x).

(* max(x, y) of two IBMFloats: y when y > x, else x
   [util.py:236, ibm_float.py:522-525] *)
Definition ibm_max (x y : word) : res word :=
  do b <- ibm_gt y x ;; Ok (if b : bool then y else x).

(* the loop of minmax [util.py:234-237] *)
Fixpoint ibm_minmax_loop (minimum maximum : word) (items : list word) : res (word * word) :=
  match items with
  | [] => Ok (minimum, maximum)
  | item :: rest =>
      do lo <- ibm_min minimum item ;; do hi <- ibm_max maximum item ;; ibm_minmax_loop lo hi rest
  end.

(* minmax of IBMFloats [util.py:215-237] *)
Definition ibm_minmax (items : list word) : res (word * word) :=
  match items with
  | [] => Err ValueError
  | first :: rest => ibm_minmax_loop first first rest
  end.

(* sorted(items) of IBMFloats, which asks only __lt__ [ibm_float.py:512-515].
   Simplification: a comparison that raises counts as false; C09 says that none
   does. *)
Definition ibm_sorted (items : list word) : list word :=
  sort_by (fun x y => match ibm_lt y x with Ok b => negb b | Err _ => true end) items.

(* sum(items) of IBMFloats: 0 + first + second + ..., where 0 + first calls
   __radd__ of the first one, and float + next __radd__ of the next one
   [ibm_float.py:496-499] *)
Fixpoint ibm_sum_from (total : number) (items : list word) : res number :=
  match items with
  | [] => Ok total
  | item :: rest => do t <- num_add total (NIbm item) ;; ibm_sum_from t rest
  end.
(* [ibm_float.py:496-499] *)
Definition ibm_sum (items : list word) : res number := ibm_sum_from (NInt 0) items.
