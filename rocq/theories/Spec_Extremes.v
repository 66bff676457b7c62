(* Specification of extremes, order and totals of IBM floats: everything is
   said of their exact values, ibm_units (Spec_Ibm.v). *)
From Coq Require Import ZArith List Bool.
From Verif Require Import Py PyFloat IbmFloat Spec_Ibm.
Import ListNotations.
Open Scope Z_scope.

(* x is the first of the smallest of ws *)
Definition first_smallest (x : word) (ws : list word) : Prop :=
  exists before after, ws = before ++ x :: after /\
    Forall (fun w => ibm_units x < ibm_units w) before /\ Forall (fun w => ibm_units x <= ibm_units w) after.

(* x is the first of the largest of ws *)
Definition first_largest (x : word) (ws : list word) : Prop :=
  exists before after, ws = before ++ x :: after /\
    Forall (fun w => ibm_units w < ibm_units x) before /\ Forall (fun w => ibm_units w <= ibm_units x) after.

(* those of ws that have the value v, in their order *)
Definition of_value (v : Z) (ws : list word) : list word := filter (fun w => ibm_units w =? v) ws.

(* r is reached from a by adding each of ws in turn, rounding each sum to the
   nearest double *)
Inductive totals : float -> list word -> float -> Prop :=
| totals_nil a : totals a [] a
| totals_cons a w b ws r : rounds_to (units a + ibm_units w) 1 b -> totals b ws r -> totals a (w :: ws) r.

(* the exact sum of the values, and of their magnitudes *)
Definition exact_sum (ns : list Z) : Z := fold_right Z.add 0 ns.
Definition magnitude_sum (ns : list Z) : Z := fold_right (fun n s => Z.abs n + s) 0 ns.

(* f is a smallest, a largest of fs *)
Definition smallest_float (f : float) (fs : list float) : Prop := In f fs /\ Forall (fun g => units f <= units g) fs.
Definition largest_float (f : float) (fs : list float) : Prop := In f fs /\ Forall (fun g => units g <= units f) fs.
