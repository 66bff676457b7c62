(* Properties C01-C14: segpy/ibm_float.py and segpy/ibm_float_packer.py.
   Numbers are integers in units of 2^-1074 (see Spec_Ibm.v): [units f] is the
   value of a double and [ibm_units w] the value of four IBM bytes. *)
From Coq Require Import ZArith List Bool Lia.
From Verif Require Import Py PyFloat IbmFloat PyFacts Spec_Ibm FloatFacts RoundFacts IbmFacts IbmArith.
Import ListNotations.
Open Scope Z_scope.

(* ---------------- C01 ---------------- *)

Theorem C01_decode_exact : forall a b c d rest, word_ok (W a b c d) ->
  exists f, ibm2ieee (a :: b :: c :: d :: rest) = Ok f /\ ibm_float (W a b c d) = Ok f /\
    float_wf f /\ finite f /\ units f = ibm_units (W a b c d) /\
    (ibm_M (W a b c d) = 0 -> f = S754_zero false).
Proof. exact decode_bytes. Qed.
Print Assumptions C01_decode_exact.

(* -118.625 *)
Example C01_example : ibm_units (W 194 118 160 0) * 1000 = -118625 * unit /\
  ibm2ieee [194; 118; 160; 0] = Ok (S754_finite true 8347492278075392 (-46)).
Proof. split; vm_compute; reflexivity. Qed.

(* ---------------- C02 ---------------- *)

Theorem C02_encode_truncates : forall f w, float_wf f -> ieee2ibm f = Ok w ->
  finite f /\ Z.abs (units f) <= ibm_max /\ truncation (units f) w /\
  (units f <> 0 -> ibm_units w <> 0) /\
  (ibm_min_normal <= Z.abs (units f) ->
     (Z.abs (units f) - Z.abs (ibm_units w)) * 2 ^ 20 < Z.abs (units f)).
Proof. exact encode_ok. Qed.
Print Assumptions C02_encode_truncates.

(* ints are rounded to a double first *)
Theorem C02_encode_int : forall n,
  (Z.abs n <= MAX_IBM_INT -> exists r w,
     rounds_to (n * unit) 1 r /\ ieee2ibm_int n = Ok w /\ truncation (units r) w) /\
  (MAX_IBM_INT < Z.abs n -> ieee2ibm_int n = Err OverflowError).
Proof. exact ieee2ibm_int_spec. Qed.
Print Assumptions C02_encode_int.

Theorem C02_encode_small_int : forall n, Z.abs n < 2 ^ 24 ->
  exists w, ieee2ibm_int n = Ok w /\ word_ok w /\ ibm_units w = n * unit.
Proof. exact ieee2ibm_int_small. Qed.
Print Assumptions C02_encode_small_int.

(* the class methods from_real and from_float of any number: floats and ints
   are encoded as above, and an IBM float is kept *)
Theorem C02_from_real :
  (forall f w, float_wf f -> from_float (RFloat f) = Ok w -> truncation (units f) w) /\
  (forall f, float_wf f -> finite f -> units f = 0 \/ ibm_min <= Z.abs (units f) <= ibm_max -> exists w, from_float (RFloat f) = Ok w) /\
  (forall n, Z.abs n <= MAX_IBM_INT -> exists r w, rounds_to (n * unit) 1 r /\ from_float (RInt n) = Ok w /\ truncation (units r) w) /\
  (forall n, MAX_IBM_INT < Z.abs n -> from_float (RInt n) = Err OverflowError) /\
  (forall w, from_float (RIbm w) = Ok w).
Proof.
  split; [|split; [|split; [|split]]].
  - intros f w W E. now apply (encode_ok f w W E).
  - intros f W F B. destruct (encode_errors f W) as (E1 & E2 & E3 & E4). cbn [from_float]. destruct (ieee2ibm f) as [w|y]; [eauto|exfalso].
    destruct (E4 y eq_refl) as [-> |[-> | ->]]; [now apply E1|assert (X := proj1 E2 eq_refl)|assert (X := proj1 E3 eq_refl)]; destruct X as (_ & X);
      assert (P : 0 < ibm_max) by reflexivity; clear -B X P; revert B X P; generalize ibm_max ibm_min (units f); intros; lia.
  - intros n. apply ieee2ibm_int_spec.
  - intros n. apply ieee2ibm_int_spec.
  - reflexivity.
Qed.
Print Assumptions C02_from_real.
(* an int half a unit of its doubles above the largest IBM float *)
Example C02_above : from_float (RInt (MAX_IBM_INT + 1)) = Err OverflowError /\ from_float (RInt MAX_IBM_INT) = Ok (W 127 255 255 255).
Proof. split; vm_compute; reflexivity. Qed.

(* 0.1 and 1/3 are truncated, not rounded; an int that needs 25 bits too *)
Example C02_example :
  ieee2ibm (S754_finite false 7205759403792794 (-56)) = Ok (W 64 25 153 153) /\
  ieee2ibm (S754_finite true 6004799503160661 (-54)) = Ok (W 192 85 85 85) /\
  ieee2ibm_int 33554431 = Ok (W 71 31 255 255) /\
  MAX_IBM_INT * unit = ibm_max.
Proof. repeat split; vm_compute; reflexivity. Qed.

(* ---------------- C03 ---------------- *)

Theorem C03_encode_errors : forall f, float_wf f ->
  (ieee2ibm f = Err ValueError <-> ~ finite f) /\
  (ieee2ibm f = Err OverflowError <-> finite f /\ ibm_max < Z.abs (units f)) /\
  (ieee2ibm f = Err FloatingPointError <-> finite f /\ 0 < Z.abs (units f) < ibm_min) /\
  (forall e, ieee2ibm f = Err e -> e = ValueError \/ e = OverflowError \/ e = FloatingPointError).
Proof. exact encode_errors. Qed.
Print Assumptions C03_encode_errors.

Theorem C03_encode_four_bytes : forall f w, float_wf f -> ieee2ibm f = Ok w -> word_ok w.
Proof. exact encode_word_ok. Qed.
Print Assumptions C03_encode_four_bytes.

Theorem C03_encode_zero :
  ieee2ibm (S754_zero false) = Ok IBM_ZERO /\ ieee2ibm (S754_zero true) = Ok IBM_ZERO.
Proof. exact encode_zero. Qed.
Print Assumptions C03_encode_zero.

(* The limits in the source are the limits of the format: the literal
   7.2370051459731155e+75 is nearest to the double used in the model (within
   half of its last place), which is the largest IBM value. *)
Example C03_limits :
  2 * Z.abs (72370051459731155 * 10 ^ 59 - 9007198717870080 * 2 ^ 199) < 2 ^ 199 /\
  units MAX_IBM_FLOAT = ibm_max /\ units MIN_IBM_FLOAT = - ibm_max /\
  ieee2ibm MAX_IBM_FLOAT = Ok (W 127 255 255 255) /\
  ieee2ibm (S754_finite false 9007198717870081 199) = Err OverflowError /\
  ieee2ibm (S754_finite false 4503599627370496 (-332)) = Ok (W 0 0 0 1) /\
  ieee2ibm (S754_finite true 9007199254740991 (-334)) = Err FloatingPointError.
Proof. repeat split; vm_compute; reflexivity. Qed.

(* ---------------- C04 ---------------- *)

Theorem C04_bytes_float_bytes : forall w, word_ok w -> exists f w',
  ibm2ieee (ibm_bytes w) = Ok f /\ ieee2ibm f = Ok w' /\ word_ok w' /\
  ibm2ieee (ibm_bytes w') = Ok f /\
  (canonical w -> w' = w) /\ (ibm_units w = 0 -> w' = IBM_ZERO) /\
  (~ tiny w \/ ibm_E w = 0 -> try_normalize w = Ok w').
Proof. exact reencode_bytes. Qed.
Print Assumptions C04_bytes_float_bytes.

Example C04_example :
  (do f <- ibm2ieee [66; 0; 18; 52] ;; ieee2ibm f) = Ok (W 64 18 52 0) /\
  (do f <- ibm2ieee [200; 0; 0; 0] ;; ieee2ibm f) = Ok IBM_ZERO /\
  (do f <- ibm2ieee [194; 118; 160; 0] ;; ieee2ibm f) = Ok (W 194 118 160 0).
Proof. repeat split; vm_compute; reflexivity. Qed.

(* ---------------- C05 ---------------- *)

Theorem C05_sample_bytes_preserved : forall l n, byte_list l -> zlen l = 4 * n -> exists ws,
  ibm_unpack l n = Ok ws /\ zlen ws = n /\ Forall word_ok ws /\
  flat_map ibm_bytes ws = l /\ ibm_pack (map RIbm ws) = Ok l.
Proof. exact unpack_pack. Qed.
Print Assumptions C05_sample_bytes_preserved.

(* a buffer that is too short is refused *)
Theorem C05_short_buffer : forall l n, byte_list l -> zlen l < 4 * n -> ibm_unpack l n = Err ValueError.
Proof. exact unpack_short. Qed.
Print Assumptions C05_short_buffer.

(* an IBMFloat is made of exactly four integers from 0 to 255, and gives them
   back as its bytes; anything else is refused *)
Theorem C05_constructor : forall l : list Z,
  (zlen l = 4 /\ byte_list l -> exists w, ibm_new l = Ok w /\ ibm_bytes w = l) /\
  (~ (zlen l = 4 /\ byte_list l) -> ibm_new l = Err ValueError).
Proof. exact ibm_new_outcome. Qed.
Print Assumptions C05_constructor.

Example C05_example :
  ibm_unpack [66; 0; 18; 52; 200; 0; 0; 0] 2 = Ok [W 66 0 18 52; W 200 0 0 0] /\
  ibm_pack [RIbm (W 66 0 18 52); RIbm (W 200 0 0 0)] = Ok [66; 0; 18; 52; 200; 0; 0; 0].
Proof. split; reflexivity. Qed.

(* ---------------- C06 ---------------- *)

Theorem C06_encode_monotone : forall f g v w, float_wf f -> float_wf g ->
  ieee2ibm f = Ok v -> ieee2ibm g = Ok w -> units f <= units g -> ibm_units v <= ibm_units w.
Proof. exact encode_monotone. Qed.
Print Assumptions C06_encode_monotone.

Theorem C06_encode_odd : forall f w, float_wf f -> ieee2ibm f = Ok w -> units f <> 0 ->
  ieee2ibm (SFopp f) = Ok (W (if w0 w <? 128 then w0 w + 128 else w0 w - 128) (w1 w) (w2 w) (w3 w)).
Proof. exact encode_odd. Qed.
Print Assumptions C06_encode_odd.

Example C06_example :
  ieee2ibm (S754_finite false 7205759403792794 (-56)) = Ok (W 64 25 153 153) /\
  ieee2ibm (S754_finite true 7205759403792794 (-56)) = Ok (W 192 25 153 153).
Proof. split; vm_compute; reflexivity. Qed.

(* ---------------- C07 ---------------- *)

Theorem C07_normalize : forall w, word_ok w ->
  (tiny w -> normalize w = Err FloatingPointError) /\
  (~ tiny w -> exists w', normalize w = Ok w' /\ word_ok w' /\ canonical w' /\ ibm_units w' = ibm_units w).
Proof. exact normalize_cases. Qed.
Print Assumptions C07_normalize.

Theorem C07_try_normalize : forall w, word_ok w -> exists w', try_normalize w = Ok w' /\ word_ok w' /\
  ibm_units w' = ibm_units w /\ try_normalize w' = Ok w' /\
  (tiny w -> w' = w) /\ (~ tiny w -> canonical w').
Proof. exact try_normalize_spec. Qed.
Print Assumptions C07_try_normalize.

Example C07_example : normalize (W 66 0 18 52) = Ok (W 64 18 52 0) /\
  normalize (W 1 0 18 52) = Err FloatingPointError /\ try_normalize (W 1 0 18 52) = Ok (W 1 0 18 52) /\
  normalize (W 2 0 18 52) = Ok (W 0 18 52 0).
Proof. repeat split; vm_compute; reflexivity. Qed.

(* ---------------- C08 ---------------- *)

(* Full property: forall x y, word_ok x -> word_ok y ->
     ibm_eq x y = Ok (ibm_units x =? ibm_units y).
   It fails in both directions. *)
Theorem C08_eq_false_positive_refuted :
  exists x y, word_ok x /\ word_ok y /\ ibm_eq x y = Ok true /\ ibm_units x <> ibm_units y.
Proof. exact eq_false_positive. Qed.
Print Assumptions C08_eq_false_positive_refuted.

Theorem C08_eq_false_negative_refuted :
  exists x y, word_ok x /\ word_ok y /\ ibm_eq x y = Ok false /\ ibm_units x = ibm_units y.
Proof. exact eq_false_negative. Qed.
Print Assumptions C08_eq_false_negative_refuted.

(* What holds: never an exception; wrong answers only for two non-zero values
   below the normal range with different exponents, or two zeros of
   different sign bit. *)
Theorem C08_eq_partial : forall x y, word_ok x -> word_ok y -> exists b, ibm_eq x y = Ok b /\
  (b = true -> ibm_units x = ibm_units y \/ (tiny x /\ tiny y /\ ibm_E x <> ibm_E y)) /\
  (ibm_units x = ibm_units y -> b = true \/ (ibm_units x = 0 /\ (w0 x <? 128) <> (w0 y <? 128))).
Proof. exact ibm_eq_spec. Qed.
Print Assumptions C08_eq_partial.

Example C08_example : ibm_eq (W 66 0 18 52) (W 64 18 52 0) = Ok true /\
  ibm_eq (W 66 0 18 52) (W 64 18 52 1) = Ok false.
Proof. split; vm_compute; reflexivity. Qed.

(* ---------------- C09 ---------------- *)

Theorem C09_eq_float : forall w f, word_ok w -> float_wf f -> exists b, ibm_eq_float w f = Ok b /\
  (b = true <-> finite f /\ ibm_units w = units f).
Proof. exact ibm_eq_float_spec. Qed.
Print Assumptions C09_eq_float.

Theorem C09_eq_rational : forall w n d, word_ok w -> 0 < d -> Z.gcd n d = 1 ->
  ibm_eq_rational w n d = true <-> n * 2 ^ 1074 = ibm_units w * d.
Proof. exact ibm_eq_rational_spec. Qed.
Print Assumptions C09_eq_rational.

Theorem C09_as_integer_ratio : forall w, word_ok w ->
  let '(n, d) := as_integer_ratio w in reduced_fraction (ibm_units w) n d.
Proof. exact as_integer_ratio_spec. Qed.
Print Assumptions C09_as_integer_ratio.

Theorem C09_order : forall x y, word_ok x -> word_ok y ->
  ibm_lt x y = Ok (ibm_units x <? ibm_units y) /\ ibm_le x y = Ok (ibm_units x <=? ibm_units y) /\
  ibm_gt x y = Ok (ibm_units y <? ibm_units x) /\ ibm_ge x y = Ok (ibm_units y <=? ibm_units x).
Proof. exact ibm_order. Qed.
Print Assumptions C09_order.

Example C09_example : as_integer_ratio (W 194 118 160 0) = (-949, 8) /\
  ibm_eq_float (W 194 118 160 0) (S754_finite true 8347492278075392 (-46)) = Ok true /\
  ibm_eq_float (W 194 118 160 0) S754_nan = Ok false /\
  ibm_lt (W 194 118 160 0) (W 66 118 160 0) = Ok true.
Proof. repeat split; vm_compute; reflexivity. Qed.

(* ---------------- C10 ---------------- *)

(* Z.quot is the integer quotient rounded toward zero. *)
Theorem C10_trunc : forall w, word_ok w -> ibm_trunc w = Ok (Z.quot (ibm_units w) unit).
Proof. exact ibm_trunc_spec. Qed.
Print Assumptions C10_trunc.

Example C10_example : ibm_trunc (W 194 118 160 0) = Ok (-118) /\ ibm_trunc (W 72 18 52 86) = Ok 305419776 /\
  ibm_trunc (W 60 255 0 0) = Ok 0.
Proof. repeat split; vm_compute; reflexivity. Qed.

(* ---------------- C11 ---------------- *)

(* Full property: ceil is the least integer >= the value and floor the
   greatest <= it.  ceil(1.0) is 2 and floor(-1.0) is -2. *)
Theorem C11_ceil_refuted : exists w n, word_ok w /\ ibm_units w = n * unit /\ ibm_ceil w = Ok (n + 1).
Proof. exact ceil_wrong. Qed.
Print Assumptions C11_ceil_refuted.

Theorem C11_floor_refuted : exists w n, word_ok w /\ ibm_units w = n * unit /\ ibm_floor w = Ok (n - 1).
Proof. exact floor_wrong. Qed.
Print Assumptions C11_floor_refuted.

(* What holds: floor is right unless the word has the sign bit set and an
   integral value, ceil unless it has not and an integral value. *)
Theorem C11_ceil_floor_partial : forall w, word_ok w -> exists c f, ibm_ceil w = Ok c /\ ibm_floor w = Ok f /\
  (w0 w < 128 \/ ~ (unit | ibm_units w) -> f * unit <= ibm_units w < (f + 1) * unit) /\
  (128 <= w0 w \/ ~ (unit | ibm_units w) -> (c - 1) * unit < ibm_units w <= c * unit).
Proof. exact ceil_floor_spec. Qed.
Print Assumptions C11_ceil_floor_partial.

Example C11_example : ibm_ceil (W 66 118 160 0) = Ok 119 /\ ibm_floor (W 66 118 160 0) = Ok 118 /\
  ibm_ceil (W 194 118 160 0) = Ok (-118) /\ ibm_floor (W 194 118 160 0) = Ok (-119) /\
  ibm_ceil (W 65 16 0 0) = Ok 2.
Proof. repeat split; vm_compute; reflexivity. Qed.

(* ---------------- C12 ---------------- *)

Theorem C12_neg_abs_zero : forall w, word_ok w ->
  word_ok (ibm_neg w) /\ ibm_units (ibm_neg w) = - ibm_units w /\ (ibm_units w <> 0 -> ibm_neg (ibm_neg w) = w) /\
  word_ok (ibm_abs w) /\ ibm_units (ibm_abs w) = Z.abs (ibm_units w) /\
  (ibm_bool w = true <-> ibm_units w <> 0) /\
  (canonical w -> zero_subnormal w = w) /\ (~ canonical w -> zero_subnormal w = IBM_ZERO).
Proof. exact neg_abs_zero. Qed.
Print Assumptions C12_neg_abs_zero.

Example C12_example : ibm_neg (W 194 118 160 0) = W 66 118 160 0 /\ ibm_neg (W 7 0 0 0) = IBM_ZERO /\
  ibm_abs (W 194 118 160 0) = W 66 118 160 0 /\ zero_subnormal (W 66 0 18 52) = IBM_ZERO.
Proof. repeat split. Qed.

(* ---------------- C13 ---------------- *)

(* m * 2^e is the value, written without negative powers *)
Theorem C13_frexp_ldexp : forall w, word_ok w -> exists m e, ibm_frexp w = Ok (m, e) /\ float_wf m /\ finite m /\
  Z.abs (units m) < unit /\ -256 <= e < 256 /\ units m * 2 ^ (e + 256) = ibm_units w * 2 ^ 256 /\
  exists w', ibm_ldexp m e = Ok w' /\ word_ok w' /\ ibm_units w' = ibm_units w.
Proof. exact frexp_value. Qed.
Print Assumptions C13_frexp_ldexp.

Example C13_example : ibm_frexp (W 194 118 160 0) = Ok (S754_finite true 8347492278075392 (-54), 8) /\
  ibm_ldexp (S754_finite true 8347492278075392 (-54)) 8 = Ok (W 194 118 160 0).
Proof. split; vm_compute; reflexivity. Qed.

(* ---------------- C14 ---------------- *)

Theorem C14_add : forall x y, word_ok x -> word_ok y ->
  op_result (ibm_units x + ibm_units y) 1 (ibm_add x y).
Proof. exact add_result. Qed.
Print Assumptions C14_add.

Theorem C14_sub : forall x y, word_ok x -> word_ok y ->
  op_result (ibm_units x - ibm_units y) 1 (ibm_sub x y).
Proof. exact sub_result. Qed.
Print Assumptions C14_sub.

Theorem C14_mul : forall x y, word_ok x -> word_ok y ->
  op_result (ibm_units x * ibm_units y) unit (ibm_mul x y).
Proof. exact mul_result. Qed.
Print Assumptions C14_mul.

Theorem C14_truediv : forall x y, word_ok x -> word_ok y -> ibm_units y <> 0 ->
  op_result (ibm_units x * unit * Z.sgn (ibm_units y)) (Z.abs (ibm_units y)) (ibm_truediv x y).
Proof. exact div_result. Qed.
Print Assumptions C14_truediv.

Theorem C14_truediv_zero : forall x y, word_ok x -> word_ok y -> ibm_units y = 0 ->
  ibm_truediv x y = Err ZeroDivisionError.
Proof. exact div_zero. Qed.
Print Assumptions C14_truediv_zero.

Theorem C14_commutative : forall x y, word_ok x -> word_ok y ->
  ibm_add x y = ibm_add y x /\ ibm_mul x y = ibm_mul y x.
Proof. exact op_comm. Qed.
Print Assumptions C14_commutative.

(* whenever the exact result is an IBM value z, the operation returns it *)
Theorem C14_exact_when_representable : forall x y z, word_ok x -> word_ok y -> word_ok z ->
  (ibm_units z = ibm_units x + ibm_units y -> exists w, ibm_add x y = Ok w /\ word_ok w /\ ibm_units w = ibm_units z) /\
  (ibm_units z = ibm_units x - ibm_units y -> exists w, ibm_sub x y = Ok w /\ word_ok w /\ ibm_units w = ibm_units z) /\
  (ibm_units z * unit = ibm_units x * ibm_units y -> exists w, ibm_mul x y = Ok w /\ word_ok w /\ ibm_units w = ibm_units z) /\
  (ibm_units y <> 0 -> ibm_units z * ibm_units y = ibm_units x * unit ->
     exists w, ibm_truediv x y = Ok w /\ word_ok w /\ ibm_units w = ibm_units z).
Proof. exact exact_results. Qed.
Print Assumptions C14_exact_when_representable.

Theorem C14_sum_of_integers : forall x y a b, word_ok x -> word_ok y ->
  ibm_units x = a * unit -> ibm_units y = b * unit -> Z.abs (a + b) < 2 ^ 24 ->
  exists w, ibm_add x y = Ok w /\ word_ok w /\ ibm_units w = (a + b) * unit.
Proof. exact sum_of_integers. Qed.
Print Assumptions C14_sum_of_integers.

(* 1 + 1 = 2, 1 - 1 = 0, 2 * 2^-260 underflow, MAX + MAX overflow, 1 / 3 *)
Example C14_example : ibm_add (W 65 16 0 0) (W 65 16 0 0) = Ok (W 65 32 0 0) /\
  ibm_sub (W 65 16 0 0) (W 65 16 0 0) = Ok IBM_ZERO /\
  ibm_mul (W 0 16 0 0) (W 0 16 0 0) = Ok IBM_ZERO /\
  ibm_add (W 127 255 255 255) (W 127 255 255 255) = Err OverflowError /\
  ibm_truediv (W 65 16 0 0) (W 65 48 0 0) = Ok (W 64 85 85 85).
Proof. repeat split; vm_compute; reflexivity. Qed.
