(* Model of segpy/ibm_float.py and the pure Python packer of
   segpy/ibm_float_packer.py.  No proofs here. *)
From Coq Require Import ZArith List Bool.
From Verif Require Import Py PyFloat.
Import ListNotations.
Open Scope Z_scope.

(* Four big-endian bytes: the slot _data, ibm_float.py:138 *)
Record word : Set := W { w0 : Z; w1 : Z; w2 : Z; w3 : Z }.

(* ibm_float.py:7 IBM_ZERO_BYTES, 549 IBM_FLOAT_ZERO *)
Definition IBM_ZERO : word := W 0 0 0 0.

(* ibm_float.py:11-14: the literals 7.2370051459731155e+75 (negated) and
   5.397605346934028e-79 as the nearest doubles *)
Definition MAX_IBM_FLOAT : float := S754_finite false 9007198717870080 199.
(* [ibm_float.py:11] *)
Definition MIN_IBM_FLOAT : float := S754_finite true 9007198717870080 199.

(* ibm_float.py:16-25 and 53 *)
Definition MAX_BITS_PRECISION_IBM_FLOAT : Z := 24.
(* [ibm_float.py:19] *)
Definition L24 : Z := 2 ^ 24.
(* [ibm_float.py:20] *)
Definition F24 : float := f_pow2 24.
(* [ibm_float.py:24] *)
Definition EXPONENT_BASE : Z := 16.
(* [ibm_float.py:25] *)
Definition EXPONENT_BIAS : Z := 64.
(* [ibm_float.py:53] *)
Definition BITS_PER_NYBBLE : Z := 4.

(* util.py:321-323 four_bytes: unpacking byte_str[:4] into four names *)
Definition four_bytes (b : list Z) : res word :=
  match b with
  | a :: b :: c :: d :: _ => Ok (W a b c d)
  | _ => Err ValueError
  end.

(* ibm_float.py:49 and 383, x * 16 ** n with x a float: 16 ** n is an int for n >= 0 (converted by the
   multiplication) and the float 2.0 ** (4 * n) otherwise *)
Definition f_mul_pow16 (x : float) (n : Z) : res float :=
  if 0 <=? n
  then do p <- f_of_int (EXPONENT_BASE ^ n) ;; Ok (f_mul x p)
  else Ok (f_mul x (f_pow2 (4 * n))).

(* ibm_float.py:31-50 ibm2ieee, on the four bytes *)
Definition ibm2ieee_word (w : word) : res float :=
  let '(W a b c d) := w in
  if (b =? 0) && (c =? 0) && (d =? 0) then Ok (S754_zero false)
  else
    let sign := if Z.land a 128 =? 0 then 1 else -1 in
    let exponent_16_biased := Z.land a 127 in
    do m <- f_of_int (Z.lor (Z.lor (Z.shiftl b 16) (Z.shiftl c 8)) d) ;;
    do mantissa <- f_div m F24 ;;
    do sgn <- f_of_int sign ;;
    f_mul_pow16 (f_mul sgn mantissa) (exponent_16_biased - EXPONENT_BIAS).

(* ibm_float.py:31-50 ibm2ieee, line 40 *)
Definition ibm2ieee (b : list Z) : res float :=
  do w <- four_bytes b ;; ibm2ieee_word w.

(* ibm_float.py:91-133, the part of ieee2ibm after the range checks;
   `negative` is `f < 0` *)
Definition ieee2ibm_core (f : float) (negative : bool) : res word :=
  let '(m, e) := f_frexp f in
  do l24 <- f_of_int L24 ;;
  do i <- f_int (f_mul m l24) ;;
  let mantissa := Z.abs i in
  let exponent := e in
  let sign := if negative then 128 else 0 in
  let remainder := exponent mod 4 in
  let '(mantissa, exponent) :=
    if negb (remainder =? 0)
    then let shift := 4 - remainder in (Z.shiftr mantissa shift, exponent + shift)
    else (mantissa, exponent) in
  let exponent_16 := Z.shiftr exponent 2 in
  let exponent_16_biased := exponent_16 + EXPONENT_BIAS in
  do (mantissa, exponent_16_biased) <-
    (if exponent_16_biased <? 0
     then let shift_16 := 0 - exponent_16_biased in
          let mantissa := Z.shiftr mantissa (4 * shift_16) in
          if mantissa =? 0 then Err FloatingPointError
          else Ok (mantissa, exponent_16_biased + shift_16)
     else Ok (mantissa, exponent_16_biased)) ;;
  Ok (W (Z.lor sign exponent_16_biased)
        (Z.land (Z.shiftr mantissa 16) 255)
        (Z.land (Z.shiftr mantissa 8) 255)
        (Z.land mantissa 255)).

(* ibm_float.py:56-133 ieee2ibm of a float *)
Definition ieee2ibm (f : float) : res word :=
  if f_eq f (S754_zero false) then Ok IBM_ZERO
  else if f_isnan f then Err ValueError
  else if f_isinf f then Err ValueError
  else if f_lt f MIN_IBM_FLOAT then Err OverflowError
  else if f_lt MAX_IBM_FLOAT f then Err OverflowError
  else ieee2ibm_core f (f_lt f (S754_zero false)).

(* ibm_float.py:81 and 85: the largest IBM value as an int, for the exact int/float comparison *)
Definition MAX_IBM_INT : Z := (2 ^ 24 - 1) * 2 ^ 228.

(* ibm_float.py:56-133 ieee2ibm of an int: isnan and frexp convert it to a float, the range
   checks compare the int itself with the float limits exactly *)
Definition ieee2ibm_int (n : Z) : res word :=
  if n =? 0 then Ok IBM_ZERO
  else
    do f <- f_of_int n ;;
    if n <? - MAX_IBM_INT then Err OverflowError
    else if MAX_IBM_INT <? n then Err OverflowError
    else ieee2ibm_core f (n <? 0).

(* ------------------------------------------------------------------ *)
(* class IBMFloat: an object is its four bytes.                         *)

(* ibm_float.py:143 bytes(ints): ValueError unless every item is in range(256) *)
Definition is_byte (x : Z) : bool := (0 <=? x) && (x <? 256).

(* ibm_float.py:140-148 __new__, 196-198 from_bytes *)
Definition ibm_new (b : list Z) : res word :=
  if negb (forallb is_byte b) then Err ValueError
  else match b with
       | [a; b; c; d] => Ok (W a b c d)
       | _ => Err ValueError
       end.

(* ibm_float.py:227-228 __bytes__ *)
Definition ibm_bytes (w : word) : list Z := [w0 w; w1 w; w2 w; w3 w].

(* ibm_float.py:151, 193: a numeric value handed to from_real or from_float *)
Inductive real : Set :=
| RFloat (f : float)
| RInt (n : Z)
| RIbm (w : word).

(* ibm_float.py:150-167 from_float, 192-194 from_real *)
Definition from_float (r : real) : res word :=
  match r with
  | RIbm w => Ok w
  | RFloat f => ieee2ibm f
  | RInt n => ieee2ibm_int n
  end.

(* ibm_float.py:169-190 from_float_without_underflow *)
Definition from_float_without_underflow (f : float) : res word :=
  match ieee2ibm f with
  | Err FloatingPointError => Ok IBM_ZERO
  | r => r
  end.

(* ibm_float.py:219-222 signbit *)
Definition signbit (w : word) : bool := negb (Z.land (w0 w) 128 =? 0).
(* ibm_float.py:360-365 exp16 *)
Definition exp16 (w : word) : Z := Z.land (w0 w) 127 - EXPONENT_BIAS.
(* ibm_float.py:367-370 int_mantissa *)
Definition int_mantissa (w : word) : Z :=
  Z.lor (Z.lor (Z.shiftl (w1 w) 16) (Z.shiftl (w2 w) 8)) (w3 w).
(* ibm_float.py:224-225 __float__ *)
Definition ibm_float (w : word) : res float := ibm2ieee_word w.
(* ibm_float.py:242-243 is_zero, 239-240 __bool__ *)
Definition is_zero (w : word) : bool := int_mantissa w =? 0.
(* [ibm_float.py:239-240] *)
Definition ibm_bool (w : word) : bool := negb (is_zero w).
(* ibm_float.py:245-250 is_subnormal *)
Definition is_subnormal (w : word) : bool :=
  if is_zero w then negb (forallb (fun b => b =? 0) (ibm_bytes w))
  else w1 w <? 16.
(* ibm_float.py:252-253 zero_subnormal *)
Definition zero_subnormal (w : word) : word := if is_subnormal w then IBM_ZERO else w.

(* ibm_float.py:255-265 frexp *)
Definition ibm_frexp (w : word) : res (float * Z) :=
  let sign := if signbit w then -1 else 1 in
  do n <- f_of_int (sign * int_mantissa w) ;;
  do mantissa <- f_div n F24 ;;
  Ok (mantissa, exp16 w * 4).

(* ibm_float.py:200-217 ldexp *)
Definition ibm_ldexp (fraction : float) (exponent : Z) : res word :=
  if negb (f_le (S754_finite true 4503599627370496 (-52)) fraction &&
           f_le fraction (S754_finite false 4503599627370496 (-52))) then Err ValueError
  else if negb ((-256 <=? exponent) && (exponent <? 256)) then Err ValueError
  else
    do ieee <- (if 0 <=? exponent
                then do p <- f_of_int (2 ^ exponent) ;; Ok (f_mul fraction p)
                else Ok (f_mul fraction (f_pow2 exponent))) ;;
    ieee2ibm ieee.

(* ibm_float.py:267-279 as_integer_ratio *)
Definition as_integer_ratio (w : word) : Z * Z :=
  let sign := if signbit w then -1 else 1 in
  let e16 := exp16 w in
  let numerator := if 0 <=? e16 then int_mantissa w * EXPONENT_BASE ^ e16 else int_mantissa w in
  let denominator := if 0 <=? e16 then L24 else L24 * EXPONENT_BASE ^ (Z.abs e16) in
  let divisor := Z.gcd numerator denominator in
  ((sign * numerator) / divisor, denominator / divisor).

(* ibm_float.py:284-292 __neg__ *)
Definition ibm_neg (w : word) : word :=
  if is_zero w then IBM_ZERO else W (Z.lxor (w0 w) 128) (w1 w) (w2 w) (w3 w).
(* ibm_float.py:294-302 __abs__ *)
Definition ibm_abs (w : word) : word :=
  if is_zero w then IBM_ZERO else W (Z.land (w0 w) 127) (w1 w) (w2 w) (w3 w).

(* ibm_float.py:401-407 the normalisation loop; each step multiplies the mantissa by 16,
   so six steps reach 2 ** 20 from a positive mantissa *)
Fixpoint normalize_loop (fuel : nat) (exponent_16 mantissa : Z) : res (Z * Z) :=
  if mantissa <? Z.shiftl 1 20 then
    let new_exponent_16 := exponent_16 - 1 in
    if negb ((-64 <=? new_exponent_16) && (new_exponent_16 <? 64)) then Err FloatingPointError
    else match fuel with
         | O => Err RuntimeError
         | S fuel => normalize_loop fuel new_exponent_16 (Z.shiftl mantissa 4)
         end
  else Ok (exponent_16, mantissa).

(* ibm_float.py:386-418 normalize *)
Definition normalize (w : word) : res word :=
  if is_zero w then Ok IBM_ZERO
  else
    do (exponent_16, mantissa) <- normalize_loop 6 (exp16 w) (int_mantissa w) ;;
    let exponent_16_biased := exponent_16 + EXPONENT_BIAS in
    let sign := Z.shiftl (if signbit w then 1 else 0) 7 in
    ibm_new [Z.lor sign exponent_16_biased;
             Z.land (Z.shiftr mantissa 16) 255;
             Z.land (Z.shiftr mantissa 8) 255;
             Z.land mantissa 255].

(* ibm_float.py:420-429 try_normalize *)
Definition try_normalize (w : word) : res word :=
  match normalize w with
  | Err FloatingPointError => Ok w
  | r => r
  end.

(* ibm_float.py:324, 338: equality of the bytes *)
Definition word_eqb (x y : word) : bool :=
  (w0 x =? w0 y) && (w1 x =? w1 y) && (w2 x =? w2 y) && (w3 x =? w3 y).

(* ibm_float.py:304-358 __eq__ with an IBMFloat *)
Definition ibm_eq (lhs rhs : word) : res bool :=
  if word_eqb lhs rhs then Ok true
  else if negb (Bool.eqb (signbit lhs) (signbit rhs)) then Ok false
  else
    do nlhs <- try_normalize lhs ;;
    do nrhs <- try_normalize rhs ;;
    if negb (is_subnormal nlhs || is_subnormal nrhs) then Ok (word_eqb nlhs nrhs)
    else
      let lhs_exp16 := exp16 nlhs in
      let rhs_exp16 := exp16 nrhs in
      let lhs_mantissa := int_mantissa nlhs in
      let rhs_mantissa := int_mantissa nrhs in
      let '(lhs_mantissa, lhs_exp16) :=
        if lhs_exp16 <? rhs_exp16
        then (Z.shiftr lhs_mantissa (4 * (rhs_exp16 - lhs_exp16)), lhs_exp16 + (rhs_exp16 - lhs_exp16))
        else (lhs_mantissa, lhs_exp16) in
      let '(rhs_mantissa, rhs_exp16) :=
        if rhs_exp16 <? lhs_exp16
        then (Z.shiftr rhs_mantissa (4 * (lhs_exp16 - rhs_exp16)), rhs_exp16 + (lhs_exp16 - rhs_exp16))
        else (rhs_mantissa, rhs_exp16) in
      if negb (lhs_exp16 =? rhs_exp16) then Err AssertionError
      else Ok (lhs_mantissa =? rhs_mantissa).

(* ibm_float.py:310-315 __eq__ with a float *)
Definition ibm_eq_float (lhs : word) (rhs : float) : res bool :=
  if f_isnan rhs || f_isinf rhs then Ok (f_eq (S754_zero false) rhs)
  else
    let '(ln, ld) := as_integer_ratio lhs in
    do (rn, rd) <- f_as_integer_ratio rhs ;;
    Ok ((ln =? rn) && (ld =? rd)).

(* ibm_float.py:317-319 __eq__ with a Rational of the given numerator and denominator *)
Definition ibm_eq_rational (lhs : word) (num den : Z) : bool :=
  let '(ln, ld) := as_integer_ratio lhs in (ln =? num) && (ld =? den).

(* ibm_float.py:512-530 comparisons of two IBMFloats *)
Definition ibm_cmp (op : float -> float -> bool) (x y : word) : res bool :=
  do fx <- ibm_float x ;; do fy <- ibm_float y ;; Ok (op fx fy).
(* [ibm_float.py:512-515] *)
Definition ibm_lt := ibm_cmp f_lt.
(* [ibm_float.py:517-520] *)
Definition ibm_le := ibm_cmp f_le.
(* [ibm_float.py:522-525] *)
Definition ibm_gt := ibm_cmp (fun x y => f_lt y x).
(* [ibm_float.py:527-530] *)
Definition ibm_ge := ibm_cmp (fun x y => f_le y x).

(* ibm_float.py:372-384 __trunc__, 545-546 __int__ *)
Definition ibm_trunc (w : word) : res Z :=
  let sign := if signbit w then -1 else 1 in
  let exponent_16 := exp16 w in
  let mantissa := int_mantissa w in
  let num_nybbles_to_preserve :=
    Z.min exponent_16 (MAX_BITS_PRECISION_IBM_FLOAT / BITS_PER_NYBBLE) in
  let num_bits_to_clear := MAX_BITS_PRECISION_IBM_FLOAT - num_nybbles_to_preserve * BITS_PER_NYBBLE in
  let clear_mask := 2 ^ num_bits_to_clear - 1 in
  let preserve_mask := Z.land (2 ^ MAX_BITS_PRECISION_IBM_FLOAT - 1) (Z.lnot clear_mask) in
  let truncated_mantissa := Z.land mantissa preserve_mask in
  do scaled <- (if 0 <=? exponent_16
                then Ok (truncated_mantissa * EXPONENT_BASE ^ exponent_16)
                else do t <- f_of_int truncated_mantissa ;;
                     do p <- f_mul_pow16 t exponent_16 ;; f_int p) ;;
  Ok (sign * Z.shiftr scaled MAX_BITS_PRECISION_IBM_FLOAT).

(* ibm_float.py:532-534 __ceil__, 536-538 __floor__ *)
Definition ibm_ceil (w : word) : res Z :=
  do t <- ibm_trunc w ;; Ok (if signbit w then t else t + 1).
(* [ibm_float.py:536-538] *)
Definition ibm_floor (w : word) : res Z :=
  do t <- ibm_trunc w ;; Ok (if signbit w then t - 1 else t).

(* ibm_float.py:490-494 __add__, 501-505 __sub__, 478-482 __mul__ of two IBMFloats *)
Definition ibm_op (op : float -> float -> float) (x y : word) : res word :=
  do fx <- ibm_float x ;; do fy <- ibm_float y ;; from_float_without_underflow (op fx fy).
(* [ibm_float.py:490-494] *)
Definition ibm_add := ibm_op f_add.
(* [ibm_float.py:501-505] *)
Definition ibm_sub := ibm_op f_sub.
(* [ibm_float.py:478-482] *)
Definition ibm_mul := ibm_op f_mul.
(* ibm_float.py:437-441 __truediv__ of two IBMFloats *)
Definition ibm_truediv (x y : word) : res word :=
  do fx <- ibm_float x ;; do fy <- ibm_float y ;;
  do q <- f_div fx fy ;; from_float_without_underflow q.

(* ------------------------------------------------------------------ *)
(* segpy/ibm_float_packer.py:48-58 Packer
   [segpy/ibm_float_packer.py:51-53 pack] *)
Definition ibm_pack (values : list real) : res (list Z) :=
  do ws <- map_res from_float values ;; Ok (flat_map ibm_bytes ws).

(* segpy/ibm_float_packer.py:55-57 unpack *)
Definition ibm_unpack (data : list Z) (num_items : Z) : res (list word) :=
  map_res (fun i => ibm_new (py_slice data i (i + 4)))
          (range_list (mk_range 0 (num_items * 4) 4)).
