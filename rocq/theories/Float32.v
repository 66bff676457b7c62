(* The 'f' format of struct and array: IEEE 754 binary32 items as Python
   floats.  No proofs here. *)
From Coq Require Import ZArith List Bool.
From Verif Require Import Py PyFloat Packing IbmFloat.
Import ListNotations.
Open Scope Z_scope.

(* array('f')[i], struct.unpack('f'): the double with the value of 32 bits.
   The payload of a NaN is not modelled.
   [toolkit.py:514] *)
Definition f32_decode (bits : Z) : float :=
  let s := 2 ^ 31 <=? bits in
  let ex := (bits / 2 ^ 23) mod 256 in
  let m := bits mod 2 ^ 23 in
  let signed (m : Z) := if s then - m else m in
  if ex =? 255 then if m =? 0 then S754_infinity s else S754_nan
  else if ex =? 0 then
    if m =? 0 then S754_zero s else binary_normalize 53 1024 (signed m) (-149) s
  else binary_normalize 53 1024 (signed (2 ^ 23 + m)) (ex - 150) s.

(* the integer nearest to n / 2^k, ties to even
   [toolkit.py:858] *)
Definition round_shift (n k : Z) : Z :=
  let q := n / 2 ^ k in
  let r := n mod 2 ^ k in
  if (2 ^ k <? 2 * r) || ((2 * r =? 2 ^ k) && Z.odd q) then q + 1 else q.

(* struct.pack('f', x), CPython PyFloat_Pack4: the double is converted to the
   nearest single; OverflowError when a finite double becomes infinite
   [toolkit.py:858] *)
Definition f32_encode (f : float) : res Z :=
  match f with
  | S754_nan => Ok (511 * 2 ^ 22)
  | S754_infinity s => Ok ((if s then 2 ^ 31 else 0) + 255 * 2 ^ 23)
  | S754_zero s => Ok (if s then 2 ^ 31 else 0)
  | S754_finite s m e =>
      let E := Z.max (-149) (Z.log2 (Zpos m) + 1 + e - 24) in
      let mant := if E <=? e then Zpos m * 2 ^ (e - E) else round_shift (Zpos m) (E - e) in
      let bits := (E + 149) * 2 ^ 23 + mant in
      if 255 * 2 ^ 23 <=? bits then Err OverflowError
      else Ok ((if s then 2 ^ 31 else 0) + bits)
  end.

(* PyFloat_AsDouble of a value given to 'f'; any failure is struct.error
   [toolkit.py:858] *)
Definition as_double (r : real) : res float :=
  match r with
  | RFloat f => Ok f
  | RInt n => match f_of_int n with Ok f => Ok f | Err _ => Err StructError end
  | RIbm w => ibm_float w
  end.

(* one packed item
   [toolkit.py:858] *)
Definition f32_pack (e : endian) (r : real) : res (list Z) :=
  do f <- as_double r ;; do b <- f32_encode f ;; pack_int e C_I b.
