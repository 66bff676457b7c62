(* Properties C102, C103 and C105 without bounds on the operands. *)
From Coq Require Import ZArith List Bool SpecFloat.
From Verif Require Import Py PyFloat IbmFloat IbmNumber Spec_Ibm Spec_IbmNumber Spec_Scale Spec_Arith ArithFacts.
Import ListNotations.
Open Scope Z_scope.

(* ---------------- C102 ---------------- *)

(* With a float of any size, infinities and NaN included, every operator except
   the division of a float by an IBMFloat gives what IEEE 754 prescribes for
   the two values: the nearest float, an infinity if that is too large. *)
Theorem C102_any_float : forall x g, word_ok x -> float_wf g ->
  (exists r, num_add (NIbm x) (NFloat g) = Ok (NFloat r) /\ num_add (NFloat g) (NIbm x) = Ok (NFloat r) /\
     ieee_sum (Num (ibm_units x)) (float_value g) (float_value r)) /\
  (exists r, num_sub (NIbm x) (NFloat g) = Ok (NFloat r) /\ ieee_sum (Num (ibm_units x)) (opposite (float_value g)) (float_value r)) /\
  (exists r, num_sub (NFloat g) (NIbm x) = Ok (NFloat r) /\ ieee_sum (float_value g) (opposite (Num (ibm_units x))) (float_value r)) /\
  (exists r, num_mul (NIbm x) (NFloat g) = Ok (NFloat r) /\ num_mul (NFloat g) (NIbm x) = Ok (NFloat r) /\
     ieee_product (Num (ibm_units x)) (float_value g) (float_value r)) /\
  (float_value g <> Num 0 -> exists r, num_truediv (NIbm x) (NFloat g) = Ok (NFloat r) /\ ieee_quotient (Num (ibm_units x)) (float_value g) (float_value r)) /\
  (float_value g = Num 0 -> num_truediv (NIbm x) (NFloat g) = Err ZeroDivisionError).
Proof. exact any_float. Qed.
Print Assumptions C102_any_float.

(* The division of a float by an IBMFloat: the IBMFloat of that quotient, as in
   the arithmetic of two IBMFloats (C14), which has no infinities. *)
Theorem C102_any_truediv : forall g x, word_ok x -> float_wf g ->
  (ibm_units x = 0 -> num_truediv (NFloat g) (NIbm x) = Err ZeroDivisionError) /\
  (ibm_units x <> 0 -> exists c q, ieee_quotient (float_value g) (Num (ibm_units x)) c /\
     num_truediv (NFloat g) (NIbm x) = (do w <- q ;; Ok (NIbm w)) /\
     match c with Num u => op_result u 1 q | _ => q = Err ValueError end).
Proof. exact any_truediv. Qed.
Print Assumptions C102_any_truediv.

(* An int of any size counts as the float nearest to it, and is refused by every
   operator if there is none. *)
Theorem C102_any_int : forall x n, word_ok x ->
  (Z.abs n * unit < too_large -> exists g, rounds_to (n * unit) 1 g /\
     (forall op, In op [num_add; num_sub; num_mul; num_mod; num_floordiv] ->
        op (NIbm x) (NInt n) = op (NIbm x) (NFloat g) /\ op (NInt n) (NIbm x) = op (NFloat g) (NIbm x)) /\
     num_truediv (NIbm x) (NInt n) = num_truediv (NIbm x) (NFloat g) /\
     (ibm_units x = 0 -> num_truediv (NInt n) (NIbm x) = Err ZeroDivisionError) /\
     (ibm_units x <> 0 -> exists r, num_truediv (NInt n) (NIbm x) = Ok (NFloat r) /\ ieee_quotient (Num (units g)) (Num (ibm_units x)) (float_value r))) /\
  (too_large <= Z.abs n * unit -> forall op, In op [num_add; num_sub; num_mul; num_mod; num_floordiv; num_truediv] ->
     op (NIbm x) (NInt n) = Err OverflowError /\ op (NInt n) (NIbm x) = Err OverflowError).
Proof. exact any_int. Qed.
Print Assumptions C102_any_int.

(* the largest float plus or times 16^62; the largest int that is not refused *)
Definition largest : float := S754_finite false 9007199254740991 971.
Example C102_any_example : float_wf largest /\ word_ok (W 127 16 0 0) /\
  num_add (NIbm (W 127 16 0 0)) (NFloat largest) = Ok (NFloat largest) /\
  num_mul (NFloat largest) (NIbm (W 127 16 0 0)) = Ok (NFloat (S754_infinity false)) /\
  num_sub (NFloat (S754_infinity false)) (NIbm (W 127 16 0 0)) = Ok (NFloat (S754_infinity false)) /\
  num_truediv (NFloat largest) (NIbm (W 0 16 0 0)) = Err ValueError /\
  num_truediv (NFloat largest) (NIbm (W 65 16 0 0)) = Err OverflowError /\
  num_add (NIbm (W 127 16 0 0)) (NInt (2 ^ 1024 - 2 ^ 970 - 1)) = Ok (NFloat largest) /\
  num_add (NIbm (W 127 16 0 0)) (NInt (2 ^ 1024 - 2 ^ 970)) = Err OverflowError.
Proof. split; [reflexivity|]. split; [repeat split; discriminate|]. repeat (apply conj; [vm_compute; reflexivity|]). vm_compute; reflexivity. Qed.

(* ---------------- C103 ---------------- *)

(* x // y with a float of any size is the floor of the IEEE 754 quotient, *)
Theorem C103_any_floordiv : forall x g, word_ok x -> float_wf g ->
  (float_value g <> Num 0 -> exists c, ieee_quotient (Num (ibm_units x)) (float_value g) c /\
     num_floordiv (NIbm x) (NFloat g) = match c with Num u => Ok (NInt (u / unit)) | Inf _ => Err OverflowError | NoNumber => Err ValueError end) /\
  (float_value g = Num 0 -> num_floordiv (NIbm x) (NFloat g) = Err ZeroDivisionError) /\
  (ibm_units x <> 0 -> exists c, ieee_quotient (float_value g) (Num (ibm_units x)) c /\
     num_floordiv (NFloat g) (NIbm x) = match c with Num u => Ok (NInt (u / unit)) | Inf _ => Err OverflowError | NoNumber => Err ValueError end) /\
  (ibm_units x = 0 -> num_floordiv (NFloat g) (NIbm x) = Err ZeroDivisionError).
Proof. exact any_floordiv. Qed.
Print Assumptions C103_any_floordiv.

(* and x % y the float nearest to the remainder. *)
Theorem C103_any_mod : forall x g, word_ok x -> float_wf g ->
  (float_value g <> Num 0 -> exists r, num_mod (NIbm x) (NFloat g) = Ok (NFloat r) /\ float_remainder (Num (ibm_units x)) (float_value g) (float_value r)) /\
  (float_value g = Num 0 -> num_mod (NIbm x) (NFloat g) = Err ZeroDivisionError) /\
  (ibm_units x <> 0 -> exists r, num_mod (NFloat g) (NIbm x) = Ok (NFloat r) /\ float_remainder (float_value g) (Num (ibm_units x)) (float_value r)) /\
  (ibm_units x = 0 -> num_mod (NFloat g) (NIbm x) = Err ZeroDivisionError).
Proof. exact any_mod. Qed.
Print Assumptions C103_any_mod.

Example C103_any_example :
  num_floordiv (NFloat largest) (NIbm (W 0 16 0 0)) = Err OverflowError /\
  num_floordiv (NIbm (W 65 16 0 0)) (NFloat largest) = Ok (NInt 0) /\
  num_floordiv (NIbm (W 193 16 0 0)) (NFloat largest) = Ok (NInt (-1)) /\
  num_mod (NIbm (W 193 16 0 0)) (NFloat largest) = Ok (NFloat largest) /\
  num_mod (NIbm (W 193 16 0 0)) (NFloat (S754_infinity false)) = Ok (NFloat (S754_infinity false)) /\
  num_mod (NFloat largest) (NIbm (W 65 112 0 0)) = Ok (NFloat (S754_finite false 5629499534213120 (-50))).
Proof. repeat (apply conj; [vm_compute; reflexivity|]). vm_compute; reflexivity. Qed.

(* ---------------- C105 ---------------- *)

(* Which ints can be compared: those with a nearest float, and then the
   comparison is with that float. *)
Theorem C105_any_int : forall x n, word_ok x ->
  (Z.abs n * unit < too_large -> exists g, rounds_to (n * unit) 1 g /\ ordered_as (NIbm x) (NInt n) (ibm_units x) (units g)) /\
  (too_large <= Z.abs n * unit -> order_fails (NIbm x) (NInt n) OverflowError).
Proof. exact any_order. Qed.
Print Assumptions C105_any_int.

Example C105_any_example : num_lt (NIbm (W 66 118 160 0)) (NInt (2 ^ 1024 - 2 ^ 970 - 1)) = Ok true /\
  num_lt (NIbm (W 66 118 160 0)) (NInt (2 ^ 1024 - 2 ^ 970)) = Err OverflowError.
Proof. split; vm_compute; reflexivity. Qed.
