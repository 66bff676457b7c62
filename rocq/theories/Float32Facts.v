(* Proofs about the single-precision codec. *)
From Coq Require Import ZArith List Bool Lia ZifyBool.
From Verif Require Import Py PyFloat PyFacts IbmFloat Spec_Ibm FloatFacts Packing Float32 Toolkit Spec_Segy.
Import ListNotations.
Open Scope Z_scope.

Lemma normalize_sign n e s : n <> 0 -> binary_normalize 53 1024 n e s = binary_normalize 53 1024 n e false.
Proof. now destruct n. Qed.

Lemma bits_split b : 0 <= b < 2 ^ 32 ->
  b = (if single_sign b then 2 ^ 31 else 0) + single_exp b * 2 ^ 23 + single_frac b /\
  0 <= single_exp b < 256 /\ 0 <= single_frac b < 2 ^ 23 /\ single_sign b = (2 ^ 31 <=? b).
Proof.
  intros H. unfold single_sign, single_exp, single_frac.
  pose proof (Z.div_mod b (2 ^ 23) ltac:(lia)) as D1. pose proof (Z.mod_pos_bound b (2 ^ 23) ltac:(lia)) as M1.
  pose proof (Z.div_mod (b / 2 ^ 23) (2 ^ 8) ltac:(lia)) as D2. pose proof (Z.mod_pos_bound (b / 2 ^ 23) (2 ^ 8) ltac:(lia)) as M2.
  rewrite Z.div_div in D2 by lia. change (2 ^ 23 * 2 ^ 8) with (2 ^ 31) in D2.
  assert (Q : b / 2 ^ 31 = 0 \/ b / 2 ^ 31 = 1) by (pose proof (Z.div_mod b (2 ^ 31) ltac:(lia)); pose proof (Z.mod_pos_bound b (2 ^ 31) ltac:(lia)); nia).
  revert D1 M1 D2 M2 Q. generalize (b mod 2 ^ 23), (b / 2 ^ 23), ((b / 2 ^ 23) mod 2 ^ 8), (b / 2 ^ 31). intros x y z q D1 M1 D2 M2 Q.
  destruct Q as [-> | ->]; cbn [Z.eqb negb]; (split; [lia|]; split; [lia|]; split; [lia|]); symmetry.
  - apply Z.leb_gt. lia.
  - apply Z.leb_le. lia.
Qed.

Lemma bits_make (s : bool) E M b : b = (if s then 2 ^ 31 else 0) + E * 2 ^ 23 + M -> 0 <= E < 256 -> 0 <= M < 2 ^ 23 ->
  0 <= b < 2 ^ 32 /\ single_sign b = s /\ single_exp b = E /\ single_frac b = M.
Proof.
  intros Eb HE HM. assert (R : 0 <= b < 2 ^ 32) by (destruct s; lia). split; auto.
  destruct (bits_split b R) as (D & R1 & R2 & S). revert D R1 R2 S.
  generalize (single_exp b) (single_frac b) (single_sign b). intros e m t D R1 R2 S.
  assert (t = s) as -> by (rewrite S; destruct s; lia). split; auto. destruct s; lia.
Qed.

Lemma p23 : 2 ^ 23 = 8388608. Proof. reflexivity. Qed.

Lemma nd_le M n : 0 < M -> 0 <= n -> M < 2 ^ n -> nd M <= n.
Proof. intros H Hn L. unfold nd. assert (Z.log2 M < n) by (apply Z.log2_lt_pow2; lia). lia. Qed.
Lemma nd_ge M n : 2 ^ n <= M -> 0 <= n -> n < nd M.
Proof. intros L Hn. unfold nd. assert (n <= Z.log2 M) by (apply Z.log2_le_pow2; lia). lia. Qed.

(* the double of a 24-bit significand *)
Lemma normalize_small (s : bool) M x : 0 < M < 2 ^ 24 -> -149 <= x <= 104 ->
  let n := if s then - M else M in
  binary_normalize 53 1024 n x s = S754_finite s (nm M) (x + nd M - 53) /\
  bounded 53 1024 (nm M) (x + nd M - 53) = true /\
  units (S754_finite s (nm M) (x + nd M - 53)) = (if s then -1 else 1) * (M * 2 ^ (x + 1074)).
Proof.
  intros H Hx n. assert (A : Z.abs n = M) by (unfold n; destruct s; lia).
  assert (H53 : 0 < M < 2 ^ 53) by lia.
  destruct (nd_bounds M H53) as (D & L). destruct (nm_spec M H53) as (N1 & N2).
  assert (nd M <= 24) by (apply nd_le; lia).
  rewrite normalize_sign by lia. rewrite normalize_exact by (rewrite A; lia). rewrite A.
  split; [|split].
  - f_equal. unfold n. destruct s; lia.
  - apply bounded_normal; lia.
  - cbn [units]. f_equal. rewrite N1, <- Z.mul_assoc, <- Z.pow_add_r by lia. f_equal. f_equal. lia.
Qed.

Lemma decode_single b : 0 <= b < 2 ^ 32 -> is_single b (f32_decode b).
Proof.
  intros H. destruct (bits_split b H) as (D & RE & RM & S). split; auto.
  unfold f32_decode. change ((b / 2 ^ 23) mod 256) with (single_exp b). change (b mod 2 ^ 23) with (single_frac b).
  rewrite <- S. clear D S. destruct (single_exp b =? 255) eqn:E1.
  { destruct (single_frac b =? 0) eqn:E2; (split; [reflexivity|]); cbv iota beta; repeat split; lia. }
  destruct (single_exp b =? 0) eqn:E2.
  - destruct (single_frac b =? 0) eqn:E3; [split; [reflexivity|]; cbv iota beta; repeat split; lia|].
    destruct (normalize_small (single_sign b) (single_frac b) (-149) ltac:(lia) ltac:(lia)) as (-> & B & U).
    split; [exact B|]. cbv iota beta. rewrite U. unfold single_units. rewrite E2. repeat split; lia.
  - destruct (normalize_small (single_sign b) (2 ^ 23 + single_frac b) (single_exp b - 150) ltac:(lia) ltac:(lia)) as (-> & B & U).
    split; [exact B|]. cbv iota beta. rewrite U. unfold single_units. rewrite E2. repeat split; lia.
Qed.

Lemma round_shift_exact M k : 0 <= k -> round_shift (M * 2 ^ k) k = M.
Proof.
  intros H. unfold round_shift. assert (0 < 2 ^ k) by lia. rewrite Z.div_mul, Z.mod_mul by lia.
  destruct (2 ^ k <? 2 * 0) eqn:E; [lia|]. destruct (2 * 0 =? 2 ^ k) eqn:E2; [lia|]. reflexivity.
Qed.

(* encoding the double of a 24-bit significand *)
Lemma encode_small (s : bool) M x : 0 < M < 2 ^ 24 -> -149 <= x <= 104 -> x = -149 \/ 2 ^ 23 <= M ->
  f32_encode (S754_finite s (nm M) (x + nd M - 53)) = Ok ((if s then 2 ^ 31 else 0) + ((x + 149) * 2 ^ 23 + M)).
Proof.
  intros H Hx HN. assert (H53 : 0 < M < 2 ^ 53) by lia.
  destruct (nd_bounds M H53) as (D & L). destruct (nm_spec M H53) as (N1 & N2).
  assert (ND : nd M <= 24) by (apply nd_le; lia).
  assert (LG : Z.log2 (Z.pos (nm M)) = 52) by (apply Z.log2_unique; lia).
  cbn [f32_encode]. rewrite LG.
  assert (EE : Z.max (-149) (52 + 1 + (x + nd M - 53) - 24) = x).
  { destruct HN as [-> | HN]; [lia|]. pose proof (nd_ge M 23 HN ltac:(lia)). lia. }
  rewrite EE. destruct (x <=? x + nd M - 53) eqn:E; [lia|].
  rewrite N1. replace (x - (x + nd M - 53)) with (53 - nd M) by lia. rewrite round_shift_exact by lia.
  destruct (255 * 2 ^ 23 <=? (x + 149) * 2 ^ 23 + M) eqn:E2; [|reflexivity]. exfalso. apply Z.leb_le in E2. rewrite p23 in *. change (2 ^ 24) with 16777216 in H. lia.
Qed.

Lemma encode_decode b : 0 <= b < 2 ^ 32 -> f32_decode b <> S754_nan -> f32_encode (f32_decode b) = Ok b.
Proof.
  intros H N. destruct (bits_split b H) as (D & RE & RM & S). revert N.
  unfold f32_decode. change ((b / 2 ^ 23) mod 256) with (single_exp b). change (b mod 2 ^ 23) with (single_frac b).
  rewrite <- S. clear S. destruct (single_exp b =? 255) eqn:E1.
  { destruct (single_frac b =? 0) eqn:E2; [|congruence]. intros _. cbn [f32_encode]. f_equal. revert D. generalize (if single_sign b then 2 ^ 31 else 0). intros. lia. }
  destruct (single_exp b =? 0) eqn:E2.
  - destruct (single_frac b =? 0) eqn:E3; [intros _; cbn [f32_encode]; f_equal; revert D; generalize (if single_sign b then 2 ^ 31 else 0); intros; lia|].
    destruct (normalize_small (single_sign b) (single_frac b) (-149) ltac:(lia) ltac:(lia)) as (-> & _).
    intros _. rewrite encode_small by lia. f_equal. revert D. generalize (if single_sign b then 2 ^ 31 else 0). intros. lia.
  - destruct (normalize_small (single_sign b) (2 ^ 23 + single_frac b) (single_exp b - 150) ltac:(lia) ltac:(lia)) as (-> & _).
    intros _. rewrite encode_small by lia. f_equal. revert D. generalize (if single_sign b then 2 ^ 31 else 0). intros. lia.
Qed.

Lemma encode_range f b : f32_encode f = Ok b -> 0 <= b < 2 ^ 32.
Proof.
  destruct f as [[]|[]| |s m e]; cbn [f32_encode]; try (injection 1 as <-; lia).
  set (E := Z.max _ _). assert (-149 <= E) by lia. clearbody E.
  set (mant := if E <=? e then _ else _).
  assert (0 <= mant).
  { unfold mant. destruct (E <=? e) eqn:L.
    - assert (0 < 2 ^ (e - E)) by lia. nia.
    - unfold round_shift. assert (0 < 2 ^ (E - e)) by lia. assert (0 <= Z.pos m / 2 ^ (E - e)) by (apply Z.div_pos; lia).
      destruct (_ || _); lia. }
  clearbody mant. destruct (255 * 2 ^ 23 <=? _) eqn:L; [discriminate|]. intros Q.
  assert (b = (if s then 2 ^ 31 else 0) + ((E + 149) * 2 ^ 23 + mant)) by congruence. apply Z.leb_gt in L.
  rewrite p23 in *. destruct s; lia.
Qed.

(* ------------------------------------------------------------------ *)
(* encoding rounds to the nearest single                                *)

Lemma round_shift_spec n k : 0 <= n -> 0 < k -> let q := round_shift n k in
  0 <= q /\ 2 * Z.abs (q * 2 ^ k - n) <= 2 ^ k /\
  (2 * Z.abs (q * 2 ^ k - n) = 2 ^ k -> Z.even q = true).
Proof.
  intros Hn Hk q. assert (P : 0 < 2 ^ k) by lia.
  pose proof (Z.div_mod n (2 ^ k) ltac:(lia)) as D. pose proof (Z.mod_pos_bound n (2 ^ k) P) as B.
  assert (Q0 : 0 <= n / 2 ^ k) by (apply Z.div_pos; lia).
  subst q. unfold round_shift. revert D B Q0. generalize (n / 2 ^ k) (n mod 2 ^ k). intros q r D B Q0.
  destruct (2 ^ k <? 2 * r) eqn:E1; cbn [orb].
  - split; [lia|]. split; [lia|]. intros. lia.
  - destruct (2 * r =? 2 ^ k) eqn:E2; cbn [andb].
    + destruct (Z.odd q) eqn:O.
      * split; [lia|]. split; [lia|]. intros _. rewrite Z.add_1_r, Z.even_succ. auto.
      * split; [lia|]. split; [lia|]. intros _. rewrite <- Z.negb_odd, O. reflexivity.
    + split; [lia|]. split; [lia|]. intros. lia.
Qed.

(* the single with exponent field and significand as used by the encoder *)
Lemma made_single (s : bool) E mant b : -149 <= E -> 0 <= mant <= 2 ^ 24 -> E = -149 \/ 2 ^ 23 <= mant ->
  (E + 149) * 2 ^ 23 + mant < 255 * 2 ^ 23 ->
  b = (if s then 2 ^ 31 else 0) + ((E + 149) * 2 ^ 23 + mant) ->
  0 <= b < 2 ^ 32 /\ single_sign b = s /\ single_exp b < 255 /\
  single_units b = (if s then -1 else 1) * (mant * 2 ^ (E + 1074)).
Proof.
  intros HE HM HN L Eb.
  assert (C : mant < 2 ^ 23 \/ 2 ^ 23 <= mant < 2 ^ 24 \/ mant = 2 ^ 24) by lia.
  destruct C as [C|[C|C]].
  - destruct (bits_make s 0 mant b) as (R & S & X & F); [rewrite Eb; lia|lia|lia|].
    split; auto. split; auto. split; [lia|]. unfold single_units. rewrite S, X, F. cbn [Z.eqb].
    destruct HN as [-> | HN]; [reflexivity|lia].
  - destruct (bits_make s (E + 150) (mant - 2 ^ 23) b) as (R & S & X & F); [rewrite Eb; lia|lia|lia|].
    split; auto. split; auto. split; [lia|]. unfold single_units. rewrite S, X, F.
    destruct (E + 150 =? 0) eqn:Z0; [lia|]. f_equal. f_equal; [lia|]. f_equal. lia.
  - destruct (bits_make s (E + 151) 0 b) as (R & S & X & F); [rewrite Eb; lia|lia|lia|].
    split; auto. split; auto. split; [lia|]. unfold single_units. rewrite S, X, F.
    destruct (E + 151 =? 0) eqn:Z0; [lia|]. f_equal.
    replace (E + 151 - 150 + 1074) with (1 + (E + 1074)) by lia. rewrite Z.pow_add_r by lia. rewrite C. lia.
Qed.

(* every finite single is a multiple of a power of two with a 24-bit significand *)
Lemma single_form b : 0 <= b < 2 ^ 32 -> single_exp b < 255 ->
  exists M E, -149 <= E /\ 0 <= M < 2 ^ 24 /\ Z.abs (single_units b) = M * 2 ^ (E + 1074).
Proof.
  intros H L. destruct (bits_split b H) as (_ & RE & RM & _). unfold single_units.
  destruct (single_exp b =? 0) eqn:E0.
  - exists (single_frac b), (-149). split; [lia|]. split; [lia|].
    assert (0 < 2 ^ (-149 + 1074)) by lia. destruct (single_sign b); nia.
  - exists (2 ^ 23 + single_frac b), (single_exp b - 150). split; [lia|]. split; [lia|].
    assert (0 < 2 ^ (single_exp b - 150 + 1074)) by lia. destruct (single_sign b); nia.
Qed.

Lemma multiple_nearest q n T k : 0 < T -> 2 * Z.abs (q * T - n) <= T -> Z.abs (q * T - n) <= Z.abs (k * T - n) /\
  (Z.abs (q * T - n) = Z.abs (k * T - n) -> k = q \/ 2 * Z.abs (q * T - n) = T).
Proof.
  intros HT H. assert (C : k = q \/ k <= q - 1 \/ q + 1 <= k) by lia. destruct C as [->|[C|C]]; [lia| |]; nia.
Qed.

Section Nearest.
(* v: the magnitude of the double, in units; E, mant: what the encoder computes *)
Variables (m : positive) (e : Z).
Hypothesis He : -1074 <= e.
Let v := Z.pos m * 2 ^ (e + 1074).
Let E := Z.max (-149) (Z.log2 (Z.pos m) + 1 + e - 24).
Let mant := if E <=? e then Z.pos m * 2 ^ (e - E) else round_shift (Z.pos m) (E - e).
Let T := 2 ^ (E + 1074).

Lemma E_low : -149 <= E. Proof. unfold E. lia. Qed.
Lemma T_pos : 0 < T. Proof. unfold T. pose proof E_low. lia. Qed.

Lemma log_bounds : 2 ^ Z.log2 (Z.pos m) <= Z.pos m < 2 * 2 ^ Z.log2 (Z.pos m).
Proof. pose proof (Z.log2_spec (Z.pos m) ltac:(lia)) as L. rewrite Z.pow_succ_r in L by apply Z.log2_nonneg. lia. Qed.

Lemma v_upper : v < 2 ^ 24 * T.
Proof.
  unfold v, T. pose proof log_bounds. pose proof (Z.log2_nonneg (Z.pos m)) as LN.
  assert (LE : Z.log2 (Z.pos m) + 1 + e + 1074 <= 24 + (E + 1074)) by (unfold E; lia).
  rewrite <- Z.pow_add_r by (pose proof E_low; lia).
  apply Z.lt_le_trans with (2 ^ (Z.log2 (Z.pos m) + 1 + e + 1074)).
  - replace (Z.log2 (Z.pos m) + 1 + e + 1074) with (1 + Z.log2 (Z.pos m) + (e + 1074)) by lia. rewrite (Z.pow_add_r 2 (1 + _)), (Z.pow_add_r 2 1) by lia. change (2 ^ 1) with 2.
    assert (0 < 2 ^ (e + 1074)) by lia. nia.
  - apply Z.pow_le_mono_r; lia.
Qed.

Lemma v_lower : E = -149 \/ 2 ^ 23 * T <= v.
Proof.
  destruct (Z.eq_dec E (-149)) as [|N]; auto. right. unfold v, T. pose proof log_bounds. pose proof (Z.log2_nonneg (Z.pos m)) as LN.
  assert (LE : 23 + (E + 1074) = Z.log2 (Z.pos m) + (e + 1074)) by (unfold E in *; lia).
  rewrite <- Z.pow_add_r by (pose proof E_low; lia). rewrite LE, Z.pow_add_r by lia.
  assert (0 < 2 ^ (e + 1074)) by lia. nia.
Qed.

Lemma mant_spec : 0 <= mant /\ 2 * Z.abs (mant * T - v) <= T /\ (2 * Z.abs (mant * T - v) = T -> Z.even mant = true).
Proof.
  unfold mant, v, T. pose proof E_low. destruct (E <=? e) eqn:L.
  - apply Z.leb_le in L. assert (0 < 2 ^ (e - E)) by lia. assert (P : 0 < 2 ^ (E + 1074)) by lia.
    replace (e + 1074) with ((e - E) + (E + 1074)) by lia. rewrite (Z.pow_add_r 2 (e - E)) by lia.
    replace (Z.pos m * 2 ^ (e - E) * 2 ^ (E + 1074) - _) with 0 by ring. change (2 * Z.abs 0) with 0. split; [nia|]. split; lia.
  - apply Z.leb_gt in L. destruct (round_shift_spec (Z.pos m) (E - e) ltac:(lia) ltac:(lia)) as (Q0 & Q1 & Q2).
    set (q := round_shift _ _) in *. clearbody q.
    replace (E + 1074) with ((E - e) + (e + 1074)) by lia. rewrite (Z.pow_add_r 2 (E - e)) by lia.
    assert (P : 0 < 2 ^ (e + 1074)) by lia. revert P Q1 Q2. generalize (2 ^ (e + 1074)) (2 ^ (E - e)). intros u w P Q1 Q2.
    replace (q * (w * u) - Z.pos m * u) with ((q * w - Z.pos m) * u) by ring. rewrite Z.abs_mul, (Z.abs_eq u) by lia.
    split; auto. split; [nia|]. intros Q. apply Q2. nia.
Qed.

Lemma mant_range : 0 <= mant <= 2 ^ 24 /\ (E = -149 \/ 2 ^ 23 <= mant).
Proof.
  destruct mant_spec as (M0 & M1 & _). pose proof v_upper. pose proof v_lower as VL. pose proof T_pos.
  assert (0 <= v) by (unfold v; assert (0 < 2 ^ (e + 1074)) by lia; nia). clearbody v T mant E.
  rewrite p23 in *. change (2 ^ 24) with 16777216 in *. split; [nia|]. destruct VL; [auto|right]. nia.
Qed.

Lemma mant_nearest M' E' : -149 <= E' -> 0 <= M' < 2 ^ 24 ->
  Z.abs (mant * T - v) <= Z.abs (M' * 2 ^ (E' + 1074) - v) /\
  (Z.abs (mant * T - v) = Z.abs (M' * 2 ^ (E' + 1074) - v) -> M' * 2 ^ (E' + 1074) = mant * T \/ Z.even mant = true).
Proof.
  intros HE HM. destruct mant_spec as (M0 & M1 & M2). pose proof T_pos as TP.
  destruct (Z_le_gt_dec E E') as [L|L].
  - replace (M' * 2 ^ (E' + 1074)) with (M' * 2 ^ (E' - E) * T).
    2:{ unfold T. rewrite <- Z.mul_assoc, <- Z.pow_add_r by (pose proof E_low; lia). f_equal. f_equal. lia. }
    destruct (multiple_nearest mant v T (M' * 2 ^ (E' - E)) TP M1) as (A & B). split; auto. intros Q. destruct (B Q) as [->|]; auto.
  - assert (VL : 2 ^ 23 * T <= v) by (destruct v_lower; [lia|auto]).
    assert (G : M' * 2 ^ (E' + 1074) < 2 ^ 23 * T).
    { unfold T. replace (E + 1074) with ((E - 1 - E') + (1 + (E' + 1074))) by lia. rewrite (Z.pow_add_r 2 (E - 1 - E')), (Z.pow_add_r 2 1) by lia. change (2 ^ 1) with 2.
      assert (0 < 2 ^ (E' + 1074)) by lia. assert (1 <= 2 ^ (E - 1 - E')) by lia. revert H H0 HM.
      generalize (2 ^ (E' + 1074)) (2 ^ (E - 1 - E')). intros x y. change (2 ^ 24) with (2 * 2 ^ 23). rewrite p23. nia. }
    destruct (multiple_nearest mant v T (2 ^ 23) TP M1) as (A & _). split; [lia|]. intros. lia.
Qed.
End Nearest.

Lemma sign_nearest x y z (P : Prop) : Z.abs (Z.abs z - Z.abs x) <= Z.abs (Z.abs y - Z.abs x) ->
  (Z.abs (Z.abs z - Z.abs x) = Z.abs (Z.abs y - Z.abs x) -> Z.abs y = Z.abs z \/ P) ->
  0 <= x * z -> (x = 0 -> z = 0) ->
  Z.abs (z - x) <= Z.abs (y - x) /\ (Z.abs (z - x) = Z.abs (y - x) -> y = z \/ P).
Proof.
  intros N1 N2 SG SZ.
  assert (C : x = 0 \/ 0 < x /\ 0 <= z \/ x < 0 /\ z <= 0) by nia. clear SG.
  destruct C as [-> | [(C1 & C2)|(C1 & C2)]].
  - rewrite (SZ eq_refl) in *. lia.
  - split; [lia|]. intros Q. destruct N2; auto; lia.
  - split; [lia|]. intros Q. destruct N2; auto; lia.
Qed.

Lemma encode_nearest f b : float_wf f -> finite f -> f32_encode f = Ok b ->
  nearest_single f (f32_decode b) /\ is_single b (f32_decode b).
Proof.
  intros W F Q. pose proof (encode_range f b Q) as R. pose proof (decode_single b R) as D.
  split; auto.
  assert (MAIN : finite (f32_decode b) /\ units (f32_decode b) = single_units b /\
    forall M' E', -149 <= E' -> 0 <= M' < 2 ^ 24 -> 
      Z.abs (Z.abs (single_units b) - Z.abs (units f)) <= Z.abs (M' * 2 ^ (E' + 1074) - Z.abs (units f)) /\
      (Z.abs (Z.abs (single_units b) - Z.abs (units f)) = Z.abs (M' * 2 ^ (E' + 1074) - Z.abs (units f)) ->
         M' * 2 ^ (E' + 1074) = Z.abs (single_units b) \/ Z.even b = true) /\
      (0 <= units f * single_units b /\ (units f = 0 -> single_units b = 0))).
  { assert (US : single_exp b < 255 -> finite (f32_decode b) /\ units (f32_decode b) = single_units b).
    { intros L. destruct D as (_ & _ & D). destruct (f32_decode b) as [s|s| |s m e] eqn:FD; try lia.
      - split; [exact I|]. unfold single_units. destruct D as (-> & -> & _). destruct (single_sign b); reflexivity.
      - split; [exact I|]. apply D. }
    destruct f as [s|s| |s m e]; cbn [f32_encode] in Q; [|destruct F|destruct F|].
    - assert (B : b = if s then 2 ^ 31 else 0) by congruence.
      destruct (bits_make s 0 0 b) as (_ & S & X & FR); [rewrite B; lia|lia|lia|].
      destruct (US ltac:(lia)) as (A1 & A2). split; auto. split; auto.
      assert (Z0 : single_units b = 0) by (unfold single_units; rewrite X, FR; destruct (single_sign b); reflexivity).
      rewrite Z0. cbn [units]. intros M' E' HE HM. assert (0 <= M' * 2 ^ (E' + 1074)) by (assert (0 < 2 ^ (E' + 1074)) by lia; nia).
      split; [lia|]. split; [|lia]. intros. left. lia.
    - assert (He : -1074 <= e) by (apply bounded_spec in W; lia).
      set (E := Z.max _ _) in Q. set (mant := if E <=? e then _ else _) in Q.
      destruct (mant_range m e He) as (MR & MN). change (Z.max (-149) (Z.log2 (Z.pos m) + 1 + e - 24)) with E in MR, MN.
      change (if E <=? e then _ else _) with mant in MR, MN.
      destruct (255 * 2 ^ 23 <=? (E + 149) * 2 ^ 23 + mant) eqn:L; [discriminate|]. apply Z.leb_gt in L.
      assert (Eb : b = (if s then 2 ^ 31 else 0) + ((E + 149) * 2 ^ 23 + mant)) by congruence.
      destruct (made_single s E mant b (E_low m e He) MR MN L Eb) as (_ & S & X & U).
      destruct (US X) as (A1 & A2). split; auto. split; auto.
      assert (TP : 0 < 2 ^ (E + 1074)) by (exact (T_pos m e He)). assert (EP : 0 < 2 ^ (e + 1074)) by lia.
      assert (AU : Z.abs (single_units b) = mant * 2 ^ (E + 1074)) by (rewrite U; destruct s; nia).
      assert (AF : Z.abs (units (S754_finite s m e)) = Z.pos m * 2 ^ (e + 1074)) by (cbn [units]; destruct s; nia).
      assert (EV : Z.even b = Z.even mant).
      { rewrite Eb, !Z.even_add, Z.even_mul. change (Z.even (2 ^ 23)) with true. rewrite orb_true_r.
        destruct s, (Z.even mant); reflexivity. }
      rewrite AU, AF, EV. intros M' E' HE HM. destruct (mant_nearest m e He M' E' HE HM) as (N1 & N2).
      split; [exact N1|]. split; [exact N2|]. rewrite U. cbn [units]. destruct s; nia. }
  destruct MAIN as (FI & U & MAIN). split; auto. exists b. split; auto.
  intros b' g (Rb & Wg & G) Fg. rewrite U.
  assert (UG : units g = single_units b' /\ single_exp b' < 255).
  { destruct g as [s|s| |s m e]; [|destruct Fg|destruct Fg|].
    - split; [|lia]. unfold single_units. destruct G as (-> & -> & _). cbn. destruct (single_sign b'); reflexivity.
    - split; [apply G|lia]. }
  destruct UG as (UG & X). destruct (single_form b' Rb X) as (M' & E' & HE & HM & AG). rewrite <- UG in AG.
  destruct (MAIN M' E' HE HM) as (N1 & N2 & SG & SZ). rewrite <- AG in N1, N2.
  destruct (MAIN 0 0 ltac:(lia) ltac:(lia)) as (N0 & _).
  revert N1 N2 SG SZ. clear. generalize (units f) (units g) (single_units b). intros x y z N1 N2 SG SZ.
  apply sign_nearest; auto.
Qed.

Lemma encode_overflow f : float_wf f -> finite f ->
  (f32_encode f = Err OverflowError <-> single_limit <= Z.abs (units f)) /\
  (forall x, f32_encode f = Err x -> x = OverflowError).
Proof.
  intros W F. destruct f as [s|s| |s m e]; [|destruct F|destruct F|].
  - cbn [f32_encode units]. split; [|intros x H; discriminate H]. split; [intros H; discriminate H|].
    intros H. exfalso. revert H. apply Z.lt_nge. reflexivity.
  - assert (He : -1074 <= e) by (apply bounded_spec in W; lia).
    cbn [f32_encode]. set (E := Z.max _ _). set (mant := if E <=? e then _ else _).
    destruct (mant_range m e He) as (MR & MN). destruct (mant_spec m e He) as (_ & M1 & M2). pose proof (v_upper m e He) as VU. pose proof (v_lower m e He) as VL.
    change (Z.max (-149) (Z.log2 (Z.pos m) + 1 + e - 24)) with E in MR, MN, M1, M2, VU, VL.
    change (if E <=? e then _ else _) with mant in MR, MN, M1, M2.
    pose proof (E_low m e He) as EL. change (-149 <= E) in EL.
    assert (EP : 0 < 2 ^ (e + 1074)) by lia.
    assert (AF : Z.abs (units (S754_finite s m e)) = Z.pos m * 2 ^ (e + 1074)) by (cbn [units]; destruct s; nia).
    rewrite AF. set (v := Z.pos m * 2 ^ (e + 1074)) in *. clearbody v mant E.
    assert (SL : single_limit = (2 ^ 25 - 1) * 2 ^ (103 + 1074)) by reflexivity. rewrite SL. clear SL.
    assert (C : E <= 103 \/ E = 104 \/ 105 <= E) by lia.
    assert (K : 255 * 2 ^ 23 <= (E + 149) * 2 ^ 23 + mant <-> (2 ^ 25 - 1) * 2 ^ (103 + 1074) <= v).
    { destruct C as [C|[C|C]].
      - assert (T1 : 2 ^ (E + 1074) <= 2 ^ (103 + 1074)) by (apply Z.pow_le_mono_r; lia).
        assert (TP : 0 < 2 ^ (E + 1074)) by lia.
        revert T1 TP VU. generalize (2 ^ (E + 1074)) (2 ^ (103 + 1074)). intros x y T1 TP VU.
        rewrite p23 in *. change (2 ^ 24) with 16777216 in *. change (2 ^ 25 - 1) with 33554431. lia.
      - subst E. replace (104 + 1074) with (1 + (103 + 1074)) in M1, M2, VU by lia. rewrite Z.pow_add_r in M1, M2, VU by lia.
        assert (TP : 0 < 2 ^ (103 + 1074)) by lia. revert TP M1 M2 VU. generalize (2 ^ (103 + 1074)). intros y TP M1 M2 VU.
        rewrite p23 in *. change (2 ^ 24) with 16777216 in *. change (2 ^ 25 - 1) with 33554431. change (2 ^ 1) with 2 in *.
        split; intros H.
        + assert (mant = 16777216) by lia. lia.
        + assert (M : mant = 16777216 \/ mant <= 16777215) by lia. destruct M as [->|M]; [lia|]. exfalso.
          assert (mant = 16777215) by nia. subst mant. assert (Z.even 16777215 = true) by (apply M2; lia). discriminate.
      - assert (T1 : 2 ^ (105 + 1074) <= 2 ^ (E + 1074)) by (apply Z.pow_le_mono_r; lia).
        replace (105 + 1074) with (2 + (103 + 1074)) in T1 by lia. rewrite Z.pow_add_r in T1 by lia.
        assert (TP : 0 < 2 ^ (103 + 1074)) by lia.
        destruct VL as [VL|VL]; [lia|]. revert T1 TP VL. generalize (2 ^ (E + 1074)) (2 ^ (103 + 1074)). intros x y T1 TP VL.
        rewrite p23 in *. change (2 ^ 2) with 4 in *. change (2 ^ 25 - 1) with 33554431. split; intros; [|nia]. nia. }
    destruct (255 * 2 ^ 23 <=? (E + 149) * 2 ^ 23 + mant) eqn:L.
    + apply Z.leb_le in L. split; [|congruence]. split; [intros _; now apply K|reflexivity].
    + apply Z.leb_gt in L. split; [|discriminate]. split; [discriminate|]. intros H. apply K in H. lia.
Qed.

(* two floats encoded by the same bits are the same unless NaN *)
Lemma single_unique b f g : is_single b f -> is_single b g -> f = g.
Proof.
  intros (_ & Wf & F) (_ & Wg & G).
  assert (NZ : forall s m e, units (S754_finite s m e) = single_units b -> float_wf (S754_finite s m e) ->
    single_exp b = 0 -> single_frac b = 0 -> False).
  { intros s m e U W X Y. unfold single_units in U. rewrite X, Y in U. cbn [Z.eqb] in U. apply bounded_spec in W. cbn [units] in U.
    assert (0 < 2 ^ (e + 1074)) by lia. destruct s, (single_sign b); nia. }
  destruct f as [s|s| |s m e], g as [t|t| |t m' e']; try reflexivity;
    destruct F as (F1 & F2), G as (G1 & G2); try congruence; try (exfalso; clear - F1 G1; lia).
  - destruct F2 as (_ & ->), G2 as (_ & ->). reflexivity.
  - destruct F2 as (F2 & _), G2 as (U & _). destruct (NZ _ _ _ U Wg F1 F2).
  - destruct F2 as (_ & ->), G2 as (_ & ->). reflexivity.
  - exfalso. apply G2, F2.
  - exfalso. apply F2, G2.
  - destruct G2 as (G2 & _), F2 as (U & _). destruct (NZ _ _ _ U Wf G1 G2).
  - destruct F2 as (U & _), G2 as (U' & _). rewrite <- U' in U. now apply units_inj in U.
Qed.
