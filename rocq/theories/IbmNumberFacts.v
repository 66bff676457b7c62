(* Proofs about an IBMFloat together with the other Python numbers. *)
From Coq Require Import ZArith List Bool Lia ZifyBool ZifyNat.
From Verif Require Import Py PyFloat IbmFloat IbmNumber PyFacts Spec_Ibm FloatFacts RoundFacts IbmFacts IbmArith.
Import ListNotations.
Open Scope Z_scope.

(* --- some doubles --- *)

Lemma double_of M k : Z.abs M <= 2 ^ 53 -> 0 <= k <= 2044 ->
  exists g, float_wf g /\ finite g /\ units g = M * 2 ^ k.
Proof.
  intros HM Hk. destruct (Z.eq_dec M 0) as [->|N].
  { exists (S754_zero false). repeat split. }
  assert (Sg : (if M <? 0 then -1 else 1) * Z.abs M = M) by (destruct (M <? 0) eqn:S; lia).
  destruct (Z.eq_dec (Z.abs M) (2 ^ 53)) as [E|E].
  { exists (fl (M <? 0) (2 ^ 53) (k - 1074)). destruct (fl_wf (M <? 0) (2 ^ 53) (k - 1074)) as (A & B & C & _); try lia.
    split; auto. split; auto. rewrite C. replace (k - 1074 + 1074) with k by lia. rewrite <- E. rewrite Z.mul_assoc, Sg. reflexivity. }
  assert (HA : 0 < Z.abs M < 2 ^ 53) by lia. destruct (nd_bounds _ HA) as (D & L1 & L2).
  set (t := Z.min k (53 - nd (Z.abs M))).
  assert (P : 0 < 2 ^ t) by (apply Z.pow_pos_nonneg; lia).
  assert (B1 : Z.abs M * 2 ^ t <= 2 ^ 53).
  { apply Z.le_trans with (2 ^ nd (Z.abs M) * 2 ^ t); [apply Z.mul_le_mono_nonneg_r; lia|].
    rewrite <- Z.pow_add_r by lia. apply Z.pow_le_mono_r; lia. }
  assert (B2 : k - t - 1074 = -1074 \/ 2 ^ 52 <= Z.abs M * 2 ^ t).
  { destruct (Z.le_gt_cases k (53 - nd (Z.abs M))); [left; lia|right].
    replace 52 with (nd (Z.abs M) - 1 + t) by lia. rewrite Z.pow_add_r by lia. apply Z.mul_le_mono_nonneg_r; lia. }
  exists (fl (M <? 0) (Z.abs M * 2 ^ t) (k - t - 1074)).
  destruct (fl_wf (M <? 0) (Z.abs M * 2 ^ t) (k - t - 1074)) as (A & B & C & _); auto; try lia.
  split; auto. split; auto. rewrite C, <- Z.mul_assoc, <- Z.pow_add_r by lia.
  replace (t + (k - t - 1074 + 1074)) with k by lia. rewrite Z.mul_assoc, Sg. reflexivity.
Qed.

Lemma double_of_int n : Z.abs n <= 2 ^ 53 -> exists g, float_wf g /\ finite g /\ units g = n * unit.
Proof. intros H. apply (double_of n 1074); lia. Qed.

(* the parts of a finite double *)
Lemma parts f : float_wf f -> finite f -> Z.abs (units f) < 2 ^ 2097 ->
  exists M k, Z.abs M < 2 ^ 53 /\ 0 <= k <= 2044 /\ units f = M * 2 ^ k.
Proof.
  intros Wf F L. destruct f as [s|s| |s m e]; cbn [finite] in F; try contradiction.
  - exists 0, 0. cbn. lia.
  - unfold float_wf in Wf. cbn [valid_binary] in Wf. apply bounded_spec in Wf. destruct Wf as (A & B & C).
    exists ((if s then -1 else 1) * Z.pos m), (e + 1074). split; [destruct s; lia|]. split; [|cbn [units]; ring].
    split; [lia|]. destruct C as [->|C]; [lia|].
    assert (K : Z.abs (units (S754_finite s m e)) = Z.pos m * 2 ^ (e + 1074)).
    { destruct (units_sign s m e) as (E & P); [lia|]. rewrite E. destruct s; lia. }
    rewrite K in L. assert (Q : 2 ^ 52 * 2 ^ (e + 1074) < 2 ^ 2097).
    { eapply Z.le_lt_trans; [|exact L]. apply Z.mul_le_mono_nonneg_r; lia. }
    rewrite <- Z.pow_add_r in Q by lia. apply Z.pow_lt_mono_r_iff in Q; lia.
Qed.

Lemma f_scaled_units f : f_scaled f = units f.
Proof. destruct f as [s|s| |s m e]; try reflexivity. cbn [f_scaled units]. destruct s; lia. Qed.

(* --- floor --- *)

Lemma f_floor_units f : float_wf f -> finite f -> f_floor f = Ok (units f / unit).
Proof.
  intros Wf F. destruct f as [s|s| |s m e]; cbn [finite] in F; try contradiction; [reflexivity|].
  unfold float_wf in Wf. cbn [valid_binary] in Wf. apply bounded_spec in Wf. destruct Wf as (A & _ & _).
  cbn [f_floor units]. f_equal. unfold unit.
  replace ((if s then -1 else 1) * (Z.pos m * 2 ^ (e + 1074))) with ((if s then Z.neg m else Z.pos m) * 2 ^ (e + 1074))
    by (destruct s; lia).
  set (n := if s then Z.neg m else Z.pos m). clearbody n. destruct (0 <=? e) eqn:E.
  - rewrite Z.pow_add_r, Z.mul_assoc by lia. rewrite Z.div_mul by (apply Z.pow_nonzero; lia). reflexivity.
  - replace (2 ^ 1074) with (2 ^ (- e) * 2 ^ (e + 1074)) by (rewrite <- Z.pow_add_r by lia; f_equal; lia).
    rewrite Z.div_mul_cancel_r; auto; apply Z.pow_nonzero; lia.
Qed.

(* --- remainder --- *)

Lemma rem_multiple a b c : 0 < c -> b <> 0 -> (c | a) -> (c | b) -> (c | Z.rem a b).
Proof.
  intros Hc Hb Ha Hb'. pose proof (Z.quot_rem' a b) as E.
  replace (Z.rem a b) with (a - b * Z.quot a b) by lia.
  apply Z.divide_sub_r; auto. now apply Z.divide_mul_l.
Qed.

Lemma rem_abs_le a b : b <> 0 -> Z.abs (Z.rem a b) <= Z.abs a.
Proof.
  intros Hb. rewrite <- Z.rem_abs by auto. rewrite Z.rem_mod_nonneg by lia. apply Z.mod_le; lia.
Qed.

(* a remainder of numbers A 2^a and B 2^b with small A and B is again one *)
Lemma rem_small p A a B b : 0 <= a -> 0 <= b -> B <> 0 -> Z.abs A < p -> Z.abs B < p ->
  exists R k, Z.abs R < p /\ (k = a \/ k = b) /\ Z.rem (A * 2 ^ a) (B * 2 ^ b) = R * 2 ^ k.
Proof.
  intros Ha Hb NB HA HB. set (x := A * 2 ^ a). set (y := B * 2 ^ b).
  assert (Pa : 0 < 2 ^ a) by lia. assert (Pb : 0 < 2 ^ b) by lia.
  assert (Ny : y <> 0) by (unfold y; nia).
  destruct (Z.le_gt_cases b a) as [L|L].
  - destruct (rem_multiple x y (2 ^ b)) as (R & E); auto.
    + exists (A * 2 ^ (a - b)). unfold x. rewrite <- Z.mul_assoc, <- Z.pow_add_r by lia. f_equal. f_equal. lia.
    + exists B. reflexivity.
    + exists R, b. split; [|auto]. pose proof (Z.rem_bound_abs x y Ny) as K. rewrite E in K. unfold y in K.
      rewrite !Z.abs_mul, (Z.abs_eq (2 ^ b)) in K by lia. apply Z.mul_lt_mono_pos_r in K; lia.
  - destruct (Z.lt_ge_cases (Z.abs x) (Z.abs y)) as [S|S].
    + exists A, a. split; auto. split; auto. unfold x in *. now apply Z.rem_small_iff.
    + destruct (rem_multiple x y (2 ^ a)) as (R & E); auto.
      * exists A. reflexivity.
      * exists (B * 2 ^ (b - a)). unfold y. rewrite <- Z.mul_assoc, <- Z.pow_add_r by lia. f_equal. f_equal. lia.
      * exists R, a. split; [|auto]. pose proof (rem_abs_le x y Ny) as K. rewrite E in K. unfold x in K.
        rewrite !Z.abs_mul, (Z.abs_eq (2 ^ a)) in K by lia. apply Z.mul_le_mono_pos_r in K; lia.
Qed.

Lemma rem_double x y : float_wf x -> finite x -> float_wf y -> finite y -> units y <> 0 ->
  Z.abs (units x) < 2 ^ 2097 -> Z.abs (units y) < 2 ^ 2097 ->
  exists g, float_wf g /\ finite g /\ units g = Z.rem (units x) (units y).
Proof.
  intros Wx Fx Wy Fy Ny Bx By.
  destruct (parts x Wx Fx Bx) as (A & a & HA & Ha & ->). destruct (parts y Wy Fy By) as (B & b & HB & Hb & E).
  rewrite E in *. destruct (rem_small (2 ^ 53) A a B b) as (R & k & HR & Hk & ->); try lia.
  apply double_of; lia.
Qed.

Lemma f_fmod_exact x y : float_wf x -> finite x -> float_wf y -> finite y -> units y <> 0 ->
  Z.abs (units x) < 2 ^ 2097 -> Z.abs (units y) < 2 ^ 2097 ->
  float_wf (f_fmod x y) /\ finite (f_fmod x y) /\ units (f_fmod x y) = Z.rem (units x) (units y).
Proof.
  intros Wx Fx Wy Fy Ny Bx By. destruct (rem_double x y) as (g & Wg & Fg & Ug); auto.
  destruct y as [t|t| |t m' e']; cbn [finite] in Fy; try contradiction.
  destruct x as [s|s| |s m e]; cbn [finite] in Fx; try contradiction.
  - cbn [f_fmod units]. rewrite Z.rem_0_l by auto. repeat split.
  - unfold f_fmod. rewrite !f_scaled_units.
    set (r := Z.rem (units (S754_finite s m e)) (units (S754_finite t m' e'))) in *.
    assert (Br : Z.abs r * 2 ^ (-1074 + 1074) < 2 ^ (1023 + 1074)).
    { change (2 ^ (-1074 + 1074)) with 1. rewrite Z.mul_1_r. pose proof (rem_abs_le (units (S754_finite s m e)) _ Ny). fold r in H.
      eapply Z.le_lt_trans; eassumption. }
    clearbody r. pose proof (binary_normalize_nearest r (-1074) ltac:(lia) Br) as R.
    change (2 ^ (-1074 + 1074)) with 1 in R. rewrite Z.mul_1_r in R.
    assert (U : units (binary_normalize 53 1024 r (-1074) false) = r).
    { etransitivity; [|exact Ug]. apply (rounds_exact_of r 1); auto; lia. }
    destruct r as [|p|p]; [repeat split| |]; (split; [apply R|split; [apply R|exact U]]).
Qed.

Lemma mod_of_rem a b : b <> 0 ->
  (Z.rem a b = 0 \/ (b <? 0) = (Z.rem a b <? 0) -> a mod b = Z.rem a b) /\
  (Z.rem a b <> 0 -> (b <? 0) <> (Z.rem a b <? 0) -> a mod b = Z.rem a b + b).
Proof.
  intros Hb. pose proof (Z.rem_bound_abs a b Hb) as K. pose proof (Z.quot_rem' a b) as E. split.
  - intros H. symmetry. apply (Z.mod_unique _ _ (Z.quot a b)); [|lia]. lia.
  - intros N H. symmetry. apply (Z.mod_unique _ _ (Z.quot a b - 1)); [|lia]. lia.
Qed.

Lemma f_is_zero_units f : float_wf f -> finite f -> f_is_zero f = (units f =? 0).
Proof.
  intros Wf F. destruct f as [s|s| |s m e]; cbn [finite] in F; try contradiction; [reflexivity|].
  cbn [f_is_zero]. unfold float_wf in Wf. cbn [valid_binary] in Wf. apply bounded_spec in Wf.
  pose proof (units_nonzero s m e ltac:(lia)). lia.
Qed.

(* The sign of the divisor, or zero, and closest to the mathematical
   remainder. *)
Lemma f_mod_rounds x y : float_wf x -> finite x -> float_wf y -> finite y -> units y <> 0 ->
  Z.abs (units x) < 2 ^ 2097 -> Z.abs (units y) < 2 ^ 2097 ->
  exists r, f_mod x y = Ok r /\ rounds_to (units x mod units y) 1 r /\
    (Z.rem (units x) (units y) = 0 \/ (units y <? 0) = (Z.rem (units x) (units y) <? 0) -> units r = units x mod units y).
Proof.
  intros Wx Fx Wy Fy Ny Bx By. destruct (f_fmod_exact x y) as (Wm & Fm & Um); auto.
  destruct (zero_wf false) as (W0 & F0). destruct (mod_of_rem (units x) (units y) Ny) as (M1 & M2).
  unfold f_mod. rewrite f_is_zero_units by auto. replace (units y =? 0) with false by lia.
  rewrite f_is_zero_units, !f_lt_units by auto. change (units (S754_zero false)) with 0. rewrite Um.
  set (r := Z.rem (units x) (units y)) in *. clearbody r. destruct (r =? 0) eqn:R0.
  - exists (S754_zero (units y <? 0)). split; auto. rewrite M1 by lia. cbn [units].
    destruct (zero_wf (units y <? 0)). split; [|lia]. apply rounds_exact; auto; cbn [units]; lia.
  - destruct (Bool.eqb (units y <? 0) (r <? 0)) eqn:E.
    + apply eqb_prop in E. exists (f_fmod x y). split; auto. rewrite M1 by auto. split; [|lia].
      apply rounds_exact; auto; lia.
    + apply eqb_false_iff in E. exists (f_add (f_fmod x y) y). split; auto. rewrite M2 by lia. split.
      * rewrite <- Um. apply f_add_rounds; auto. rewrite Um, <- M2 by lia.
        pose proof (Z.mod_pos_bound (units x) (units y)). pose proof (Z.mod_neg_bound (units x) (units y)).
        change (1023 + 1074) with 2097. lia.
      * intros [H|H]; [lia|contradiction].
Qed.

(* --- floor division --- *)

Lemma gap A a B b : 0 <= a -> 0 <= b -> Z.abs A < 2 ^ 24 -> 0 < B < 2 ^ 24 ->
  let x := A * 2 ^ a in let y := B * 2 ^ b in
  x / y + 1 <> 0 -> y <= 2 ^ 25 * ((x / y + 1) * y - x).
Proof.
  intros Ha Hb HA HB x y. assert (Pa : 0 < 2 ^ a) by lia. assert (Pb : 0 < 2 ^ b) by lia.
  assert (Py : 0 < y) by (unfold y; nia).
  assert (G : 0 < (x / y + 1) * y - x).
  { pose proof (Z.mod_pos_bound x y Py). pose proof (Z.div_mod x y). lia. }
  revert G. generalize (x / y + 1). intros m G N. destruct (Z.le_gt_cases b a) as [L|L].
  - assert (E : m * y - x = 2 ^ b * (m * B - A * 2 ^ (a - b))).
    { unfold x, y. replace (2 ^ a) with (2 ^ (a - b) * 2 ^ b) by (rewrite <- Z.pow_add_r by lia; f_equal; lia). ring. }
    rewrite E in *. set (t := m * B - A * 2 ^ (a - b)) in *. assert (1 <= t) by nia. unfold y.
    apply Z.le_trans with (2 ^ 24 * 2 ^ b); [apply Z.mul_le_mono_nonneg_r; lia|]. change (2 ^ 25) with (2 * 2 ^ 24). nia.
  - set (z := B * 2 ^ (b - a)). assert (Pz : 0 < 2 ^ (b - a)) by lia. assert (Hz : 0 < z) by (unfold z; nia).
    assert (Ey : y = z * 2 ^ a).
    { unfold y, z. replace (2 ^ b) with (2 ^ (b - a) * 2 ^ a) by (rewrite <- Z.pow_add_r by lia; f_equal; lia). ring. }
    assert (E : m * y - x = 2 ^ a * (m * z - A)) by (rewrite Ey; unfold x; ring).
    rewrite E in *. rewrite Ey. clearbody z. clear E Ey.
    assert (T : 1 <= m * z - A) by nia.
    assert (K : z <= 2 ^ 25 * (m * z - A)).
    { destruct (Z.le_gt_cases z (2 ^ 25)) as [S|S]; [lia|].
      assert (1 <= m) by (destruct (Z.le_gt_cases 1 m); auto; assert (m * z <= - z) by nia; lia).
      assert (z <= m * z) by nia. lia. }
    nia.
Qed.

Lemma floor_of_rounded A a B b r : 794 <= a -> 0 <= b <= 1302 -> Z.abs A < 2 ^ 24 -> 0 < B < 2 ^ 24 ->
  Z.abs (A * 2 ^ a) < 2 ^ 28 * (B * 2 ^ b) ->
  rounds_to (A * 2 ^ a * unit) (B * 2 ^ b) r -> units r / unit = A * 2 ^ a / (B * 2 ^ b).
Proof.
  intros Ha Hb HA HB Q R. pose proof unit_pos as PU. set (x := A * 2 ^ a) in *. set (y := B * 2 ^ b) in *.
  assert (Pb : 0 < 2 ^ b) by lia. assert (Py : 0 < y) by (unfold y; nia).
  pose proof (Z.div_mod x y ltac:(lia)) as DM. pose proof (Z.mod_pos_bound x y Py) as MB.
  set (n := x / y) in *. set (s := x mod y) in *.
  assert (Hn : - 2 ^ 28 <= n < 2 ^ 28) by nia.
  symmetry. apply Z.div_unique with (units r - unit * n); [|lia]. left.
  destruct R as (Wr & Fr & R).
  assert (Lo : n * unit <= units r).
  { destruct (double_of_int n) as (g & Wg & Fg & Ug); [lia|]. destruct (R g Wg Fg) as (K & _). rewrite Ug in K.
    apply (Z.mul_le_mono_pos_r _ _ y); auto. nia. }
  assert (Hi : units r < (n + 1) * unit); [|lia].
  (* otherwise some double is nearer *)
  assert (C : exists g, float_wf g /\ finite g /\ x * unit <= units g * y /\ units g < (n + 1) * unit).
  { destruct (Z.eq_dec (n + 1) 0) as [Z0|NZ].
    - (* just below zero *)
      destruct (double_of (-1) 0) as (g & Wg & Fg & Ug); try lia. exists g. split; auto. split; auto.
      rewrite Ug, Z0. split; [|lia]. assert (Nx : x < 0) by lia.
      assert (X : x <= - 2 ^ a). { unfold x in *. assert (0 < 2 ^ a) by lia. assert (A < 0) by nia. nia. }
      assert (Y : y <= 2 ^ a * unit).
      { unfold y, unit. apply Z.le_trans with (2 ^ 24 * 2 ^ b); [apply Z.mul_le_mono_nonneg_r; lia|].
        rewrite <- !Z.pow_add_r by lia. apply Z.pow_le_mono_r; lia. }
      assert (0 < 2 ^ a) by lia. nia.
    - pose proof (gap A a B b ltac:(lia) ltac:(lia) HA HB) as G. fold x y n in G. specialize (G NZ).
      destruct (double_of ((n + 1) * 2 ^ 25 - 1) 1049) as (g & Wg & Fg & Ug); [change (2 ^ 53) with (2 ^ 28 * 2 ^ 25); lia|lia|].
      assert (EU : unit = 2 ^ 25 * 2 ^ 1049) by (unfold unit; now rewrite <- Z.pow_add_r by lia).
      exists g. split; auto. split; auto. rewrite Ug, EU. assert (P : 0 < 2 ^ 1049) by lia.
      generalize dependent (2 ^ 1049). intros P1 Ug EU P. split; [|lia]. nia. }
  destruct C as (g & Wg & Fg & C1 & C2). destruct (R g Wg Fg) as (K & _).
  destruct (Z.lt_ge_cases (units r) ((n + 1) * unit)) as [|S]; auto. exfalso.
  assert (units g * y < units r * y) by (apply Z.mul_lt_mono_pos_r; lia). lia.
Qed.
