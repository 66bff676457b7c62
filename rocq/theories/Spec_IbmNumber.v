(* Specification used in the statements about an IBMFloat together with the
   other Python numbers. *)
From Coq Require Import ZArith List Bool.
From Verif Require Import Py PyFloat IbmFloat IbmNumber Spec_Ibm.
Import ListNotations.
Open Scope Z_scope.

(* n is the integer nearest to the number v (in units), the even one when v
   lies half way between two *)
Definition nearest_integer (v n : Z) : Prop :=
  forall k, Z.abs (n * unit - v) <= Z.abs (k * unit - v) /\
    (Z.abs (n * unit - v) = Z.abs (k * unit - v) -> k <> n -> Z.even n = true).

(* the order comparisons of x and y, whichever is on the left, give what those
   of the integers u and v give *)
Definition ordered_as (x y : number) (u v : Z) : Prop :=
  num_lt x y = Ok (u <? v) /\ num_le x y = Ok (u <=? v) /\ num_gt x y = Ok (v <? u) /\ num_ge x y = Ok (v <=? u) /\
  num_lt y x = Ok (v <? u) /\ num_le y x = Ok (v <=? u) /\ num_gt y x = Ok (u <? v) /\ num_ge y x = Ok (u <=? v).
(* they all raise this exception *)
Definition order_fails (x y : number) (e : exn) : Prop :=
  num_lt x y = Err e /\ num_le x y = Err e /\ num_gt x y = Err e /\ num_ge x y = Err e /\
  num_lt y x = Err e /\ num_le y x = Err e /\ num_gt y x = Err e /\ num_ge y x = Err e.
