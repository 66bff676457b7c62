(* Rounding of sums, quotients and ints, with the exact threshold of overflow. *)
From Coq Require Import ZArith Bool Lia ZifyBool SpecFloat.
From Verif Require Import Py PyFloat IbmFloat Spec_Ibm FloatFacts RoundFacts Spec_Scale RoundAll.
Open Scope Z_scope.

Lemma too_large_pos : 0 < too_large.
Proof. reflexivity. Qed.

Lemma binary_round_all (s : bool) p e : -1074 <= e -> let r := binary_round 53 1024 s p e in
  (Z.pos p * 2 ^ (e + 1074) < too_large -> rounds_to ((if s then -1 else 1) * (Z.pos p * 2 ^ (e + 1074))) 1 r) /\
  (too_large <= Z.pos p * 2 ^ (e + 1074) -> r = S754_infinity s).
Proof.
  intros H1 r. subst r. unfold binary_round, shl_align. change (Z.pos (digits2_pos p)) with (Zd (Z.pos p)).
  set (f := fexp 53 1024 (Zd (Z.pos p) + e)). assert (Ef : f = Z.max (Zd (Z.pos p) + e - 53) (-1074)) by apply fexp_max.
  assert (K : forall m ex, 0 < m -> m * 2 ^ (ex + 1074) = Z.pos p * 2 ^ (e + 1074) -> -1074 <= ex -> ex <= fexp 53 1024 (Zd m + ex) ->
    (Z.pos p * 2 ^ (e + 1074) < too_large -> rounds_to ((if s then -1 else 1) * (Z.pos p * 2 ^ (e + 1074))) 1 (binary_round_aux 53 1024 s m ex loc_Exact)) /\
    (too_large <= Z.pos p * 2 ^ (e + 1074) -> binary_round_aux 53 1024 s m ex loc_Exact = S754_infinity s)).
  { intros m ex Hm E Hx Hf. destruct (round_all s m ex loc_Exact 1 (m * (2 ^ (ex - -1074) * 1)) (-1074)) as (R1 & R2); try lia; [apply inb_exact|].
    assert (X : m * (2 ^ (ex - -1074) * 1) = Z.pos p * 2 ^ (e + 1074)) by (rewrite <- E, Z.mul_1_r; do 2 f_equal; lia).
    rewrite X in R1, R2. change (1 * 2 ^ (-1074 - -1074)) with 1 in R1.
    replace ((2 ^ 54 - 1) * (2 ^ (970 - -1074) * 1)) with too_large in R1, R2 by (unfold too_large; change (970 - -1074) with (970 + 1074); ring).
    split; assumption. }
  destruct (f - e) as [|k|k] eqn:Ek.
  - apply K; [lia|reflexivity|lia|fold f; lia].
  - apply K; [lia|reflexivity|lia|fold f; lia].
  - assert (Em : Z.pos (shift_pos k p) = Z.pos p * 2 ^ (e - f)) by (rewrite shift_pos_spec; do 2 f_equal; lia).
    assert (Ed : Zd (Z.pos (shift_pos k p)) = Zd (Z.pos p) + (e - f)) by (apply digits_scale; [lia|exact Em]).
    assert (Ef' : fexp 53 1024 (Zd (Z.pos (shift_pos k p)) + f) = f) by (rewrite Ed, fexp_max; lia).
    apply K; [lia| |lia|lia].
    rewrite Em, <- Z.mul_assoc, <- Z.pow_add_r by lia. do 2 f_equal. lia.
Qed.

Lemma normalize_all m e s : -1074 <= e ->
  (Z.abs m * 2 ^ (e + 1074) < too_large -> rounds_to (m * 2 ^ (e + 1074)) 1 (binary_normalize 53 1024 m e s)) /\
  (too_large <= Z.abs m * 2 ^ (e + 1074) -> binary_normalize 53 1024 m e s = S754_infinity (m <? 0)).
Proof.
  intros He. destruct m as [|p|p]; cbn [binary_normalize Z.abs].
  - rewrite Z.mul_0_l. split; [|intros H; exfalso; pose proof too_large_pos; revert H H0; generalize too_large; lia].
    intros _. apply rounds_exact; [lia|reflexivity|exact I|reflexivity].
  - destruct (binary_round_all false p e He) as (A & B). rewrite Z.mul_1_l in A. split; assumption.
  - destruct (binary_round_all true p e He) as (A & B). split; [|exact B].
    intros L. specialize (A L). replace (-1 * (Z.pos p * 2 ^ (e + 1074))) with (Z.neg p * 2 ^ (e + 1074)) in A; [exact A|].
    rewrite <- Pos2Z.opp_pos. ring.
Qed.

Lemma finite_bound x : float_wf x -> finite x -> Z.abs (units x) < too_large.
Proof.
  intros W F. destruct x as [s|s| |s m e]; cbn [finite] in F; try contradiction; [reflexivity|].
  pose proof (proj1 (bounded_spec _ _) W) as B.
  assert (AX : Z.abs (units (S754_finite s m e)) = Z.pos m * 2 ^ (e + 1074)).
  { assert (0 < Z.pos m * 2 ^ (e + 1074)) by (apply Z.mul_pos_pos; lia). cbn [units]. destruct s; lia. }
  rewrite AX.
  apply Z.le_lt_trans with (Z.pos m * 2 ^ (971 + 1074)).
  - apply Z.mul_le_mono_nonneg_l; [lia|]. apply Z.pow_le_mono_r; lia.
  - unfold too_large. replace (971 + 1074) with (1 + (970 + 1074)) by lia. rewrite Z.pow_add_r by lia. rewrite Z.mul_assoc. apply Z.mul_lt_mono_pos_r; [apply Z.pow_pos_nonneg; lia|]. lia.
Qed.

Lemma f_add_all x y : float_wf x -> finite x -> float_wf y -> finite y ->
  (Z.abs (units x + units y) < too_large -> rounds_to (units x + units y) 1 (f_add x y)) /\
  (too_large <= Z.abs (units x + units y) -> f_add x y = S754_infinity (units x + units y <? 0)).
Proof.
  intros Wx Fx Wy Fy. pose proof (finite_bound x Wx Fx) as Lx. pose proof (finite_bound y Wy Fy) as Ly.
  destruct x as [s|s| |s m e]; cbn [finite] in Fx; try contradiction;
  destruct y as [t|t| |t m' e']; cbn [finite] in Fy; try contradiction; unfold f_add; cbn [SFadd].
  - split; [|intros H; exfalso; revert H Lx; cbn [units]; generalize too_large; lia].
    intros _. destruct s, t; apply rounds_exact; try reflexivity; exact I.
  - split; [|intros H; exfalso; revert H Ly; generalize too_large; cbn [units]; lia].
    intros _. apply rounds_exact; auto; cbn [units]; try lia; exact I.
  - split; [|intros H; exfalso; revert H Lx; generalize too_large; cbn [units]; lia].
    intros _. apply rounds_exact; auto; cbn [units]; try lia; exact I.
  - pose proof (proj1 (bounded_spec _ _) Wx) as Bx. pose proof (proj1 (bounded_spec _ _) Wy) as By.
    set (ez := Z.min e e'). rewrite !cond_Zopp_sign, !shl_align_spec by (unfold ez; lia).
    set (sum := (if s then -1 else 1) * (Z.pos m * 2 ^ (e - ez)) + (if t then -1 else 1) * (Z.pos m' * 2 ^ (e' - ez))).
    assert (E : sum * 2 ^ (ez + 1074) = units (S754_finite s m e) + units (S754_finite t m' e')).
    { unfold sum. cbn [units]. rewrite Z.mul_add_distr_r, <- !Z.mul_assoc, <- !Z.pow_add_r by (unfold ez; lia).
      replace (e - ez + (ez + 1074)) with (e + 1074) by lia.
      replace (e' - ez + (ez + 1074)) with (e' + 1074) by lia. reflexivity. }
    rewrite <- E. assert (P : 0 < 2 ^ (ez + 1074)) by (apply Z.pow_pos_nonneg; unfold ez; lia).
    rewrite Z.abs_mul, (Z.abs_eq (2 ^ _)) by lia.
    replace (sum * 2 ^ (ez + 1074) <? 0) with (sum <? 0).
    2:{ clear - P. revert P. generalize (2 ^ (ez + 1074)). intros z P. destruct (Z.ltb_spec sum 0), (Z.ltb_spec (sum * z) 0); auto; nia. }
    apply normalize_all. unfold ez; lia.
Qed.

Lemma f_of_int_all n :
  (Z.abs n * unit < too_large -> exists g, f_of_int n = Ok g /\ rounds_to (n * unit) 1 g) /\
  (too_large <= Z.abs n * unit -> f_of_int n = Err OverflowError).
Proof.
  destruct (normalize_all n 0 false ltac:(lia)) as (A & B). change (0 + 1074) with 1074 in A, B. fold unit in A, B. unfold f_of_int. split.
  - intros L. specialize (A L). exists (binary_normalize 53 1024 n 0 false). split; [|exact A].
    destruct A as (_ & F & _). destruct (binary_normalize 53 1024 n 0 false); cbn [finite] in F; auto; contradiction.
  - intros L. now rewrite (B L).
Qed.

Lemma f_div_all x y : float_wf x -> finite x -> float_wf y -> finite y -> units y <> 0 -> exists r, f_div x y = Ok r /\
  (Z.abs (units x) * unit < too_large * Z.abs (units y) -> rounds_to (units x * unit * Z.sgn (units y)) (Z.abs (units y)) r) /\
  (too_large * Z.abs (units y) <= Z.abs (units x) * unit -> r = S754_infinity (xorb (sign_of x) (sign_of y))).
Proof.
  intros Wx Fx Wy Fy Ny.
  destruct y as [t|t| |t m' e']; cbn [finite] in Fy; try contradiction.
  unfold f_div. cbn [f_is_zero]. eexists. split; [reflexivity|].
  pose proof (proj1 (bounded_spec _ _) Wy) as By.
  assert (PY : 0 < Z.pos m' * 2 ^ (e' + 1074)) by (apply Z.mul_pos_pos; lia).
  assert (AY : Z.abs (units (S754_finite t m' e')) = Z.pos m' * 2 ^ (e' + 1074)).
  { cbn [units]. destruct t; lia. }
  assert (SY : Z.sgn (units (S754_finite t m' e')) = if t then -1 else 1).
  { cbn [units]. destruct t; lia. }
  rewrite AY, SY in *.
  destruct x as [s|s| |s m e]; cbn [finite] in Fx; try contradiction; cbn [SFdiv].
  { split; [intros _; apply rounds_exact; [exact PY|reflexivity|exact I|cbn [units]; ring]|].
    cbn [units]. rewrite Z.abs_0, Z.mul_0_l. intros X. exfalso. pose proof (Z.mul_pos_pos _ _ too_large_pos PY) as P. apply (Z.lt_irrefl 0). eapply Z.lt_le_trans; [exact P|exact X]. }
  pose proof (proj1 (bounded_spec _ _) Wx) as Bx.
  assert (AX : Z.abs (units (S754_finite s m e)) = Z.pos m * 2 ^ (e + 1074)).
  { assert (0 < Z.pos m * 2 ^ (e + 1074)) by (apply Z.mul_pos_pos; lia). cbn [units]. destruct s; lia. }
  rewrite AX.
  unfold SFdiv_core_binary. fold (Zd (Z.pos m)) (Zd (Z.pos m')).
  set (d1 := Zd (Z.pos m)). set (d2 := Zd (Z.pos m')). rewrite fexp_max.
  set (ez := Z.min (Z.max (d1 + e - (d2 + e') - 53) (-1074)) (e - e')).
  assert (Hm' : match e - e' - ez with 0 => Z.pos m | Z.pos _ => Z.shiftl (Z.pos m) (e - e' - ez) | Z.neg _ => 0 end
    = Z.pos m * 2 ^ (e - e' - ez)).
  { assert (0 <= e - e' - ez) by (unfold ez; lia). destruct (e - e' - ez) eqn:Es; [rewrite Z.pow_0_r; lia| |lia].
    now rewrite Z.shiftl_mul_pow2 by lia. }
  rewrite Hm'. set (M := Z.pos m * 2 ^ (e - e' - ez)).
  pose proof (Z_div_mod M (Z.pos m') ltac:(lia)) as DM. destruct (Z.div_eucl M (Z.pos m')) as (q, r).
  destruct DM as (DM & Hr).
  assert (PMM : 0 < M) by (apply Z.mul_pos_pos; unfold ez; lia).
  assert (Hq : 0 <= q) by (clear -DM Hr PMM; nia).
  destruct (Zd_bounds (Z.pos m) ltac:(lia)) as (D1 & L1 & U1). destruct (Zd_bounds (Z.pos m') ltac:(lia)) as (D2 & L2 & U2).
  fold d1 in D1, L1, U1. fold d2 in D2, L2, U2.
  assert (Dq : d1 + (e - e' - ez) - d2 <= Zd q).
  { destruct (Z.le_gt_cases (d1 + (e - e' - ez) - d2) 0); [pose proof (Zd_nonneg q Hq); lia|].
    apply Zd_ge; [|lia]. apply Z.lt_succ_r. apply (Z.mul_lt_mono_pos_r (Z.pos m')); [lia|].
    replace (Z.succ q * Z.pos m') with (Z.pos m' * q + Z.pos m') by ring.
    apply Z.le_lt_trans with M; [|lia].
    apply Z.le_trans with (2 ^ (d1 + (e - e' - ez) - d2 - 1) * 2 ^ d2); [apply Z.mul_le_mono_nonneg_l; lia|].
    rewrite <- Z.pow_add_r by lia. unfold M.
    replace (d1 + (e - e' - ez) - d2 - 1 + d2) with ((d1 - 1) + (e - e' - ez)) by lia.
    rewrite Z.pow_add_r by (unfold ez; lia). apply Z.mul_le_mono_nonneg_r; [apply Z.pow_nonneg; lia|lia]. }
  assert (Hez : -2148 <= ez) by (unfold ez; lia).
  pose proof (new_location_inb (Z.pos m') q r (2 ^ (ez - -2148)) ltac:(lia) Hr ltac:(apply Z.pow_pos_nonneg; lia)) as IB.
  destruct (round_all (xorb s t) q ez (new_location (Z.pos m') r) (Z.pos m') ((q * Z.pos m' + r) * 2 ^ (ez - -2148)) (-2148)) as (R1 & R2);
    [exact Hq|lia|lia|exact IB|lia|rewrite fexp_max; unfold ez in *; lia|].
  assert (P3 : 0 < 2 ^ (e' + 1074)) by (apply Z.pow_pos_nonneg; lia). assert (PU : 0 < unit) by (unfold unit; apply Z.pow_pos_nonneg; lia).
  (* both sides at the same scale *)
  assert (EN : 2 ^ (e' + 1074) * ((q * Z.pos m' + r) * 2 ^ (ez - -2148)) = unit * (Z.pos m * 2 ^ (e + 1074) * unit)).
  { replace (q * Z.pos m' + r) with M by lia. unfold M, unit.
    assert (PE : 2 ^ (e' + 1074) * (2 ^ (e - e' - ez) * 2 ^ (ez - -2148)) = 2 ^ 1074 * (2 ^ (e + 1074) * 2 ^ 1074)).
    { rewrite <- !Z.pow_add_r by (unfold ez; lia). f_equal. lia. }
    replace (2 ^ (e' + 1074) * (Z.pos m * 2 ^ (e - e' - ez) * 2 ^ (ez - -2148))) with (Z.pos m * (2 ^ (e' + 1074) * (2 ^ (e - e' - ez) * 2 ^ (ez - -2148)))) by ring.
    rewrite PE. ring. }
  assert (ET : 2 ^ (e' + 1074) * ((2 ^ 54 - 1) * (2 ^ (970 - -2148) * Z.pos m')) = unit * (too_large * (Z.pos m' * 2 ^ (e' + 1074)))).
  { unfold too_large, unit. replace (970 - -2148) with (970 + 1074 + 1074) by lia. rewrite (Z.pow_add_r 2 (970 + 1074)) by lia. ring. }
  set (N := (q * Z.pos m' + r) * 2 ^ (ez - -2148)) in *. set (T := (2 ^ 54 - 1) * (2 ^ (970 - -2148) * Z.pos m')) in *. clearbody N T.
  change (-1074 - -2148) with 1074 in R1. fold unit in R1.
  set (r0 := binary_round_aux _ _ _ _ _ _) in *. clearbody r0. cbn [sign_of]. split.
  - intros L. assert (LN : N < T).
    { apply (Z.mul_lt_mono_pos_l (2 ^ (e' + 1074))); [exact P3|]. rewrite EN, ET. apply Z.mul_lt_mono_pos_l; [exact PU|exact L]. }
    specialize (R1 LN). apply (rounds_scale unit); [exact PU|].
    assert (SC : forall c N D r, 0 < c -> rounds_to N D r -> rounds_to (c * N) (c * D) r).
    { clear. intros c N D r Hc (W & F & H). split; auto. split; auto. intros g Wg Fg. destruct (H g Wg Fg) as (A & B).
      assert (S : forall u, Z.abs (u * (c * D) - c * N) = c * Z.abs (u * D - N)).
      { intros u. replace (u * (c * D) - c * N) with (c * (u * D - N)) by ring. rewrite Z.abs_mul. lia. }
      rewrite !S. split; [apply Z.mul_le_mono_nonneg_l; lia|].
      intros E. apply B. apply Z.mul_cancel_l in E; lia. }
    apply (SC (2 ^ (e' + 1074)) _ _ _ P3) in R1.
    replace (unit * (units (S754_finite s m e) * unit * (if t then -1 else 1))) with (2 ^ (e' + 1074) * ((if xorb s t then -1 else 1) * N)).
    2:{ replace (2 ^ (e' + 1074) * ((if xorb s t then -1 else 1) * N)) with ((if xorb s t then -1 else 1) * (2 ^ (e' + 1074) * N)) by ring.
        rewrite EN. cbn [units]. destruct s, t; cbn [xorb]; ring. }
    replace (unit * (Z.pos m' * 2 ^ (e' + 1074))) with (2 ^ (e' + 1074) * (Z.pos m' * unit)) by ring.
    exact R1.
  - intros L. apply R2. apply (Z.mul_le_mono_pos_l _ _ (2 ^ (e' + 1074))); [exact P3|]. rewrite EN, ET. apply Z.mul_le_mono_pos_l; [exact PU|exact L].
Qed.
