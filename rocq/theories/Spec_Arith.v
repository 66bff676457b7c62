(* Specification for C102 and C103: IEEE 754 arithmetic of any two floats.  Nothing
   here refers to the code. *)
From Coq Require Import ZArith Bool.
From Verif Require Import Py PyFloat Spec_Ibm Spec_Scale.
Open Scope Z_scope.

(* the float for the exact result n / d: the nearest one, an infinity from
   half a unit above the largest float on *)
Definition ieee_value (n d : Z) (c : extended) : Prop :=
  (Z.abs n < too_large * d /\ exists r, rounds_to n d r /\ c = Num (units r)) \/
  (too_large * d <= Z.abs n /\ c = Inf (n <? 0)).

Definition opposite (a : extended) : extended :=
  match a with Num u => Num (- u) | Inf s => Inf (negb s) | NoNumber => NoNumber end.
Definition ieee_sum (a b c : extended) : Prop :=
  match a, b with
  | NoNumber, _ | _, NoNumber => c = NoNumber
  | Inf s, Inf t => c = if Bool.eqb s t then Inf s else NoNumber
  | Inf s, Num _ | Num _, Inf s => c = Inf s
  | Num u, Num v => ieee_value (u + v) 1 c
  end.
(* for a divisor that is not zero *)
Definition ieee_quotient (a b c : extended) : Prop :=
  match a, b with
  | NoNumber, _ | _, NoNumber | Inf _, Inf _ => c = NoNumber
  | Inf s, Num v => c = Inf (xorb s (v <? 0))
  | Num _, Inf _ => c = Num 0
  | Num u, Num v => ieee_value (u * unit * Z.sgn v) (Z.abs v) c
  end.
(* Python's %, for a divisor that is not zero: what remains below the multiple
   of the divisor next to the number, seen from the side of zero on which the
   divisor is *)
Definition float_remainder (a b c : extended) : Prop :=
  match a, b with
  | NoNumber, _ | _, NoNumber | Inf _, _ => c = NoNumber
  | Num u, Inf s => c = if (u =? 0) || Bool.eqb (u <? 0) s then Num u else Inf s
  | Num u, Num v => exists r, rounds_to (u mod v) 1 r /\ c = Num (units r)
  end.
