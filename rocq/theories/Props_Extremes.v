(* Property C152: extremes, order and totals of IBM floats. *)
From Coq Require Import ZArith List Bool Lia SpecFloat Permutation Sorted.
From Verif Require Import Py PyFloat IbmFloat Spec_Ibm IbmNumber Extremes Spec_Extremes ExtremesFacts.
Import ListNotations.
Open Scope Z_scope.

(* minmax of IBM floats gives the first of the smallest and the first of the
   largest, by their exact values. *)
Theorem C152_minmax : forall ws, ws <> [] -> Forall word_ok ws ->
  exists lo hi, ibm_minmax ws = Ok (lo, hi) /\ first_smallest lo ws /\ first_largest hi ws.
Proof. exact minmax_first. Qed.
Print Assumptions C152_minmax.

(* Of no items there are no extremes. *)
Theorem C152_minmax_empty : ibm_minmax [] = Err ValueError.
Proof. reflexivity. Qed.
Print Assumptions C152_minmax_empty.

(* Sorting IBM floats gives the same words, by ascending exact values; words of
   one value, which may differ in their bytes, stay in their order. *)
Theorem C152_sorted : forall ws, Forall word_ok ws ->
  Permutation (ibm_sorted ws) ws /\ StronglySorted (fun x y => ibm_units x <= ibm_units y) (ibm_sorted ws) /\
  forall v, of_value v (ibm_sorted ws) = of_value v ws.
Proof. exact sorted_stable. Qed.
Print Assumptions C152_sorted.

(* The sum of up to 2^53 IBM floats is a Python float: 0.0, to which each is
   added in turn, each sum rounded to the nearest double. *)
Theorem C152_sum : forall ws, ws <> [] -> Forall word_ok ws -> Z.of_nat (length ws) <= 2 ^ 53 ->
  exists r, ibm_sum ws = Ok (NFloat r) /\ totals (S754_zero false) ws r.
Proof. exact sum_rounds. Qed.
Print Assumptions C152_sum.

(* The sum is exact when the values are multiples of one power of two whose
   magnitudes come to no more than 2^53 times that power. *)
Theorem C152_sum_exact : forall ws ns k, ws <> [] -> Forall word_ok ws -> 0 <= k <= 2043 ->
  map ibm_units ws = map (fun n => n * 2 ^ k) ns -> magnitude_sum ns <= 2 ^ 53 ->
  exists r, ibm_sum ws = Ok (NFloat r) /\ float_wf r /\ finite r /\ units r = exact_sum (map ibm_units ws).
Proof. exact sum_exact. Qed.
Print Assumptions C152_sum_exact.

(* Of no items the sum is the int 0. *)
Theorem C152_sum_empty : ibm_sum [] = Ok (NInt 0).
Proof. reflexivity. Qed.
Print Assumptions C152_sum_empty.

(* Floats in ascending order are encoded as words in ascending order, which
   sorting leaves alone. *)
Theorem C152_encoded_sorted : forall fs ws, Forall float_wf fs -> Forall2 (fun f w => ieee2ibm f = Ok w) fs ws ->
  StronglySorted (fun f g => units f <= units g) fs -> ibm_sorted ws = ws.
Proof. exact encoded_sorted. Qed.
Print Assumptions C152_encoded_sorted.

(* The extremes of encoded floats have the values of the encoded extremes. *)
Theorem C152_encoded_extremes : forall fs ws low high, Forall float_wf fs -> Forall2 (fun f w => ieee2ibm f = Ok w) fs ws ->
  smallest_float low fs -> largest_float high fs ->
  exists lo hi v w, ibm_minmax ws = Ok (lo, hi) /\ ieee2ibm low = Ok v /\ ieee2ibm high = Ok w /\
    ibm_units lo = ibm_units v /\ ibm_units hi = ibm_units w.
Proof. exact encoded_extremes. Qed.
Print Assumptions C152_encoded_extremes.

(* 2, 1, -118.625 and another 1 of other bytes: 1 and 1 stay in their order,
   the sum is -114.625, and is exact, for the values are multiples of 1/8 *)
Definition four_words : list word := [W 65 32 0 0; W 66 1 0 0; W 194 118 160 0; W 65 16 0 0].

Example C152_example :
  Forall word_ok four_words /\
  ibm_minmax four_words = Ok (W 194 118 160 0, W 65 32 0 0) /\
  ibm_minmax [W 66 1 0 0; W 65 16 0 0] = Ok (W 66 1 0 0, W 66 1 0 0) /\
  ibm_sorted four_words = [W 194 118 160 0; W 66 1 0 0; W 65 16 0 0; W 65 32 0 0] /\
  map ibm_units four_words = map (fun n => n * 2 ^ 1071) [16; 8; -949; 8] /\
  magnitude_sum [16; 8; -949; 8] <= 2 ^ 53 /\
  ibm_sum four_words = Ok (NFloat (S754_finite true 8066017301364736 (-46))).
Proof.
  split; [repeat constructor; cbn; lia|].
  repeat (split; [vm_compute; first [reflexivity|discriminate]|]). vm_compute. reflexivity.
Qed.

(* 0.1 and the next double above it, which become one word *)
Example C152_encoded_example :
  let f := S754_finite false 7205759403792794 (-56) in let g := S754_finite false 7205759403792795 (-56) in
  Forall float_wf [f; g] /\ Forall2 (fun f w => ieee2ibm f = Ok w) [f; g] [W 64 25 153 153; W 64 25 153 153] /\
  StronglySorted (fun f g => units f <= units g) [f; g] /\ smallest_float f [f; g] /\ largest_float g [f; g].
Proof.
  cbv zeta. split; [repeat constructor|]. split; [repeat constructor; vm_compute; reflexivity|].
  assert (L : units (S754_finite false 7205759403792794 (-56)) <= units (S754_finite false 7205759403792795 (-56))) by (vm_compute; discriminate).
  split; [repeat constructor; exact L|]. unfold smallest_float, largest_float.
  split; (split; [cbn; auto|repeat constructor; first [exact L|apply Z.le_refl]]).
Qed.
