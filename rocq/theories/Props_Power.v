(* Powers of IBM floats (C132). *)
From Coq Require Import ZArith List Bool Lia.
From Verif Require Import Py PyFloat IbmFloat IbmNumber Spec_Ibm FloatFacts IbmFacts IbmArith IbmNumberFacts Power Spec_Power PowerFacts.
Import ListNotations.
Open Scope Z_scope.

(* Where the n-th power of a number is a float (any sign, any kind of number, n = 0
   included), x ** y is its truncation to an IBM float if both are IBM floats, and
   OverflowError if it is too large; otherwise it is this float. *)
Theorem C132_exact : forall c_pow complex_pow, finds_exact_powers c_pow ->
  forall x y u n g, has_value x u -> has_value y (n * unit) -> 0 <= n -> float_wf g -> finite g -> is_power u n (units g) ->
  match x, y with
  | NIbm _, NIbm _ =>
      (Z.abs (units g) <= ibm_max -> exists w, num_pow c_pow complex_pow x y = Ok (PNumber (NIbm w)) /\ truncation (units g) w) /\
      (ibm_max < Z.abs (units g) -> num_pow c_pow complex_pow x y = Err OverflowError)
  | NIbm _, _ | _, NIbm _ =>
      exists f, num_pow c_pow complex_pow x y = Ok (PNumber (NFloat f)) /\ float_wf f /\ finite f /\ units f = units g
  | _, _ => True
  end.
Proof. intros c_pow complex_pow X x y u n g Hx Hy Hn Wg Fg P. exact (pow_exact c_pow complex_pow x y u n g X Hx Hy Hn Wg Fg P). Qed.
Print Assumptions C132_exact.

(* The square of an IBM float is its product with itself. *)
Theorem C132_square : forall c_pow complex_pow, finds_exact_powers c_pow ->
  forall x y, word_ok x -> word_ok y -> ibm_units y = 2 * unit ->
  num_pow c_pow complex_pow (NIbm x) (NIbm y) = do w <- ibm_mul x x ;; Ok (PNumber (NIbm w)).
Proof. intros c_pow complex_pow X x y Wx Wy E. exact (pow_square c_pow complex_pow x y X Wx Wy E). Qed.
Print Assumptions C132_square.

(* Powers of whole numbers are exact below 2^24. *)
Theorem C132_integers : forall c_pow complex_pow, finds_exact_powers c_pow ->
  forall x y a n, word_ok x -> word_ok y -> ibm_units x = a * unit -> ibm_units y = n * unit -> 0 <= n -> Z.abs (a ^ n) < 2 ^ 24 ->
  exists w, num_pow c_pow complex_pow (NIbm x) (NIbm y) = Ok (PNumber (NIbm w)) /\ word_ok w /\ ibm_units w = a ^ n * unit.
Proof.
  intros c_pow complex_pow X x y a n Wx Wy Ux Uy Hn L. destruct (int_word (a ^ n) L) as (z & Wz & Uz).
  destruct (decoded_wf z Wz) as [Dz Fz]. assert (Vz := decoded_units z Wz).
  assert (P : is_power (a * unit) n (units (decoded z))).
  { unfold is_power. rewrite Vz, Uz, Z.pow_mul_l. generalize unit (a ^ n). intros; lia. }
  destruct (pow_exact c_pow complex_pow (NIbm x) (NIbm y) (a * unit) n (decoded z) X) as [A _]; try assumption;
    [split; assumption|split; assumption|].
  rewrite Vz in A. destruct (A (ibm_max_bound z Wz)) as (w & E & T). exists w. split; [exact E|]. split; [apply T|].
  rewrite <- Uz. apply truncation_exact; assumption.
Qed.
Print Assumptions C132_integers.

(* For every implementation of C's pow: to the power 0 everything is 1; zero has no
   negative power. *)
Theorem C132_zero : forall c_pow complex_pow,
  (forall x y, word_ok x -> word_ok y -> ibm_units y = 0 -> num_pow c_pow complex_pow (NIbm x) (NIbm y) = Ok (PNumber (NIbm (W 65 16 0 0)))) /\
  (forall x y v, has_value x 0 -> has_value y v -> v < 0 -> is_ibm x = true \/ is_ibm y = true ->
     num_pow c_pow complex_pow x y = Err ZeroDivisionError).
Proof.
  intros c_pow complex_pow. split.
  - intros x y Wx Wy U. unfold num_pow, ibm_pow. cbn [num_float]. rewrite !ibm_float_spec by assumption. cbn [bind].
    destruct (decoded_wf y Wy) as [Dy Fy]. unfold float_pow. rewrite (f_is_zero_units _ Dy Fy), decoded_units, U by exact Wy. cbn [Z.eqb bind is_ibm].
    vm_compute. reflexivity.
  - intros x y v Hx Hy Hv I. exact (pow_zero c_pow complex_pow x y v Hx Hy Hv I).
Qed.
Print Assumptions C132_zero.

(* For every implementation: in all other real cases the result is the truncation of
   what pow finds for the magnitude of x, with a minus sign for odd powers of negative
   numbers; OverflowError if it is too large for an IBM float; what pow raises otherwise. *)
Theorem C132_any : forall c_pow complex_pow x y a b, word_ok x -> word_ok y ->
  ibm_units x <> 0 -> Z.abs (ibm_units x) <> unit -> ibm_units y <> 0 -> 0 < ibm_units x \/ ibm_units y mod unit = 0 ->
  float_wf a -> finite a -> units a = Z.abs (ibm_units x) -> float_wf b -> finite b -> units b = ibm_units y ->
  let s := if (ibm_units x <? 0) && Z.odd (Z.abs (ibm_units y) / unit) then -1 else 1 in
  match c_pow a b with
  | Err e => num_pow c_pow complex_pow (NIbm x) (NIbm y) = Err e
  | Ok r => float_wf r -> finite r ->
      (Z.abs (units r) <= ibm_max -> exists w, num_pow c_pow complex_pow (NIbm x) (NIbm y) = Ok (PNumber (NIbm w)) /\ truncation (s * units r) w) /\
      (ibm_max < Z.abs (units r) -> num_pow c_pow complex_pow (NIbm x) (NIbm y) = Err OverflowError)
  end.
Proof.
  intros c_pow complex_pow x y a b Wx Wy Nx N1 Ny C Wa Fa Ua Wb Fb Ub.
  exact (pow_other c_pow complex_pow x y a b Wx Wy Nx N1 Ny C Wa Fa Ua Wb Fb Ub).
Qed.
Print Assumptions C132_any.

(* A negative number to a fraction gives what Python's complex power gives, as a complex
   number; but if its imaginary part is zero and both are IBM floats, zero gives an IBM
   zero and any other real part TypeError. *)
Theorem C132_fraction : forall c_pow complex_pow x y u v, has_value x u -> u < 0 -> has_value y v -> v mod unit <> 0 ->
  is_ibm x = true \/ is_ibm y = true ->
  exists a b, float_wf a /\ finite a /\ units a = u /\ float_wf b /\ finite b /\ units b = v /\
    num_pow c_pow complex_pow x y =
      match complex_pow a b with
      | Err e => Err e
      | Ok (re, im) =>
          if is_ibm x && is_ibm y && f_eq im (S754_zero false)
          then if f_is_zero re then Ok (PNumber (NIbm IBM_ZERO)) else Err TypeError
          else Ok (PComplex re im)
      end.
Proof.
  intros c_pow complex_pow x y u v Hx Hu Hy Hv I.
  destruct (pow_fraction c_pow complex_pow x y u v Hx Hu Hy Hv) as (a & b & Wa & Fa & Ua & Wb & Fb & Ub & P & Ea & Eb).
  exists a, b. do 6 (split; [assumption|]).
  destruct x as [i|f|w], y as [j|h|z]; try (destruct I; discriminate); unfold num_pow, ibm_pow, ibm_rpow; cbn [num_float is_ibm andb] in *;
    rewrite ?Ea, ?Eb; cbn [bind]; rewrite ?Ea, ?Eb; cbn [bind]; rewrite P; destruct (complex_pow a b) as [[re im]|e]; cbn [bind]; try reflexivity;
    destruct (f_eq im (S754_zero false)); reflexivity.
Qed.
Print Assumptions C132_fraction.

(* There is a pow that finds exact powers; with it, (-3) ** 5 is -243. *)
Example C132_nonvacuous : finds_exact_powers exact_pow /\
  word_ok (W 193 48 0 0) /\ ibm_units (W 193 48 0 0) = -3 * unit /\ word_ok (W 65 80 0 0) /\ ibm_units (W 65 80 0 0) = 5 * unit /\
  (exists w, num_pow exact_pow (fun _ _ => Err ValueError) (NIbm (W 193 48 0 0)) (NIbm (W 65 80 0 0)) = Ok (PNumber (NIbm w)) /\
     word_ok w /\ ibm_units w = -243 * unit) /\
  has_value (NIbm (W 192 128 0 0)) (- 2 ^ 1073) /\ (- 2 ^ 1073) mod unit <> 0.
Proof.
  assert (A : word_ok (W 193 48 0 0)) by (unfold word_ok; cbn; lia).
  assert (B : ibm_units (W 193 48 0 0) = -3 * unit) by (vm_compute; reflexivity).
  assert (C : word_ok (W 65 80 0 0)) by (unfold word_ok; cbn; lia).
  assert (D : ibm_units (W 65 80 0 0) = 5 * unit) by (vm_compute; reflexivity).
  split; [exact exact_pow_ok|]. do 4 (split; [assumption|]). split; [|split].
  - exact (C132_integers exact_pow _ exact_pow_ok _ _ (-3) 5 A C B D ltac:(lia) ltac:(reflexivity)).
  - split; [unfold word_ok; cbn; lia|vm_compute; reflexivity].
  - vm_compute. discriminate.
Qed.
