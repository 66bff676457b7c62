(* Property C104 with a number of digits. *)
From Coq Require Import ZArith Lia.
From Verif Require Import Py PyFloat IbmFloat Spec_Ibm Spec_Digits Digits DigitsFacts.
Open Scope Z_scope.

(* round(x, n) of an IBM float is the IBM float (in the sense of the results of
   arithmetic, C14) of the double nearest to the decimal number with n digits
   that is nearest to x, for every n. *)
Theorem C104_digits : forall w n, word_ok w -> exists k, nearest_decimal (ibm_units w) n k /\
  op_result (k * tens (- n) * unit) (tens n) (ibm_round_digits w n).
Proof. exact round_decimal. Qed.
Print Assumptions C104_digits.

(* 118.625 to 2, 1, 0, -1 and -3 digits; a number with digits everywhere keeps
   them from 280 digits on; the largest number to -75 and -76 digits *)
Example C104_digits_example :
  ibm_round_digits (W 66 118 160 0) 2 = Ok (W 66 118 158 184) /\ ibm_round_digits (W 66 118 160 0) 1 = Ok (W 66 118 153 153) /\
  ibm_round_digits (W 66 118 160 0) 0 = Ok (W 66 119 0 0) /\ ibm_round_digits (W 194 118 160 0) (-1) = Ok (W 194 120 0 0) /\
  ibm_round_digits (W 66 118 160 0) (-3) = Ok IBM_ZERO /\ ibm_round_digits (W 0 0 0 1) 323 = Ok (W 0 0 0 1) /\ ibm_round_digits (W 0 0 0 1) 400 = Ok (W 0 0 0 1) /\
  ibm_round_digits (W 127 255 255 255) (-76) = Err OverflowError /\ ibm_round_digits (W 127 255 255 255) (-309) = Ok IBM_ZERO.
Proof. repeat (apply conj; [vm_compute; reflexivity|]); vm_compute; reflexivity. Qed.
