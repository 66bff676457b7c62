(* Proofs about rounding to decimal digits. *)
From Coq Require Import ZArith Bool Lia ZifyBool SpecFloat.
From Verif Require Import Py PyFloat IbmFloat Spec_Ibm FloatFacts RoundFacts IbmFacts IbmArith IbmNumberProps Spec_Scale RoundAll TransformFacts Spec_Digits Digits.
Open Scope Z_scope.

Lemma f_ratio_rounds (s : bool) n d : 0 <= n -> 0 < d -> n * unit < too_large * d -> rounds_to ((if s then -1 else 1) * (n * unit)) d (f_ratio s n d).
Proof.
  intros Hn Hd B. destruct n as [|m|m]; [|destruct d as [|m'|m']; try lia|lia].
  { cbn [f_ratio]. apply rounds_exact; [exact Hd|reflexivity|exact I|]. rewrite Z.mul_0_l, Z.mul_0_r. reflexivity. }
  cbn [f_ratio]. unfold SFdiv_core_binary. fold (Zd (Z.pos m)) (Zd (Z.pos m')).
  set (d1 := Zd (Z.pos m)). set (d2 := Zd (Z.pos m')). rewrite fexp_max.
  replace (d1 + 0 - (d2 + 0)) with (d1 - d2) by lia. change (0 - 0) with 0.
  set (ez := Z.min (Z.max (d1 - d2 - 53) (-1074)) 0).
  assert (Hez : -1074 <= ez <= 0) by (unfold ez; lia).
  assert (Hm' : match 0 - ez with 0 => Z.pos m | Z.pos _ => Z.shiftl (Z.pos m) (0 - ez) | Z.neg _ => 0 end = Z.pos m * 2 ^ (- ez)).
  { replace (0 - ez) with (- ez) by lia. destruct (- ez) eqn:Es; [rewrite Z.pow_0_r; lia| |lia]. now rewrite Z.shiftl_mul_pow2 by lia. }
  rewrite Hm'. set (M := Z.pos m * 2 ^ (- ez)).
  pose proof (Z_div_mod M (Z.pos m') ltac:(lia)) as DM. destruct (Z.div_eucl M (Z.pos m')) as (q, r). destruct DM as (DM & Hr).
  assert (PMM : 0 < M) by (apply Z.mul_pos_pos; lia).
  assert (Hq : 0 <= q) by (clear -DM Hr PMM; nia).
  destruct (Zd_bounds (Z.pos m) ltac:(lia)) as (D1 & L1 & U1). destruct (Zd_bounds (Z.pos m') ltac:(lia)) as (D2 & L2 & U2).
  fold d1 in D1, L1, U1. fold d2 in D2, L2, U2.
  assert (Dq : d1 - ez - d2 <= Zd q).
  { destruct (Z.le_gt_cases (d1 - ez - d2) 0); [pose proof (Zd_nonneg q Hq); lia|].
    apply Zd_ge; [|lia]. apply Z.lt_succ_r. apply (Z.mul_lt_mono_pos_r (Z.pos m')); [lia|].
    replace (Z.succ q * Z.pos m') with (Z.pos m' * q + Z.pos m') by ring.
    apply Z.le_lt_trans with M; [|lia].
    apply Z.le_trans with (2 ^ (d1 - ez - d2 - 1) * 2 ^ d2); [apply Z.mul_le_mono_nonneg_l; lia|].
    rewrite <- Z.pow_add_r by lia. unfold M.
    replace (d1 - ez - d2 - 1 + d2) with ((d1 - 1) + (- ez)) by lia.
    rewrite Z.pow_add_r by lia. apply Z.mul_le_mono_nonneg_r; [apply Z.pow_nonneg; lia|lia]. }
  pose proof (new_location_inb (Z.pos m') q r (2 ^ (ez - -1074)) ltac:(lia) Hr ltac:(apply Z.pow_pos_nonneg; lia)) as IB.
  assert (EN : (q * Z.pos m' + r) * 2 ^ (ez - -1074) = Z.pos m * unit).
  { replace (q * Z.pos m' + r) with M by lia. unfold M, unit. rewrite <- Z.mul_assoc, <- Z.pow_add_r by lia. do 2 f_equal. lia. }
  rewrite EN in IB.
  destruct (round_all s q ez (new_location (Z.pos m') r) (Z.pos m') (Z.pos m * unit) (-1074)) as (R & _); [exact Hq|lia|lia|exact IB|lia|rewrite fexp_max; unfold ez in *; lia|].
  change (-1074 - -1074) with 0 in R. rewrite Z.pow_0_r, Z.mul_1_r in R. apply R.
  revert B. unfold too_large. change (970 - -1074) with (970 + 1074). rewrite <- Z.mul_assoc. exact (fun x => x).
Qed.

Lemma div_even_near a b : 0 < b -> 2 * Z.abs (div_even a b * b - a) <= b /\ (2 * Z.abs (div_even a b * b - a) = b -> Z.even (div_even a b) = true).
Proof.
  intros Hb. pose proof (Z.div_mod a b ltac:(lia)) as D. pose proof (Z.mod_pos_bound a b Hb) as R. unfold div_even.
  set (q := a / b) in *. set (r := a mod b) in *. clearbody q r. subst a.
  destruct (Z.ltb_spec (2 * r) b) as [L|L].
  { replace (q * b - (b * q + r)) with (- r) by ring. split; [lia|]. intros E. lia. }
  destruct (Z.ltb_spec b (2 * r)) as [L'|L'].
  { replace ((q + 1) * b - (b * q + r)) with (b - r) by ring. split; [lia|]. intros E. lia. }
  destruct (Z.even q) eqn:Ev.
  { replace (q * b - (b * q + r)) with (- r) by ring. split; [lia|]. auto. }
  replace ((q + 1) * b - (b * q + r)) with (b - r) by ring. split; [lia|]. intros _. rewrite Z.even_add, Ev. reflexivity.
Qed.
Lemma div_even_nonneg a b : 0 <= a -> 0 < b -> 0 <= div_even a b.
Proof. intros Ha Hb. pose proof (Z.div_pos a b Ha Hb). unfold div_even. repeat match goal with |- context [if ?x then _ else _] => destruct x end; lia. Qed.

Lemma tens_pos n : 0 < tens n.
Proof. unfold tens. apply Z.pow_pos_nonneg; lia. Qed.

Lemma nearest_scaled v n k : 2 * Z.abs (k * (tens (- n) * unit) - v * tens n) <= tens (- n) * unit ->
  (2 * Z.abs (k * (tens (- n) * unit) - v * tens n) = tens (- n) * unit -> Z.even k = true) -> nearest_decimal v n k.
Proof.
  intros A B j. rewrite <- !Z.mul_assoc. apply nearest_of; auto. apply Z.mul_pos_pos; [apply tens_pos|apply unit_pos].
Qed.

Section Round.
Variables (s : bool) (m : positive) (e n : Z).
Hypothesis WF : float_wf (S754_finite s m e).
Hypothesis SMALL : Z.abs (units (S754_finite s m e)) < 2 ^ 253 * unit.

Let up := 10 ^ Z.max n 0.
Let down := 10 ^ Z.max (- n) 0.
Let two := 2 ^ Z.max (- e) 0.
Let k := div_even (Zpos m * 2 ^ Z.max e 0 * up) (two * down).

Lemma low : -1074 <= e.
Proof. apply bounded_spec in WF. lia. Qed.
Lemma two_pos : 0 < two.
Proof. apply Z.pow_pos_nonneg; lia. Qed.
Lemma magnitude : Zpos m * 2 ^ (e + 1074) * two = Zpos m * 2 ^ Z.max e 0 * unit.
Proof.
  pose proof low as L. unfold two, unit. rewrite <- !Z.mul_assoc. f_equal. rewrite <- !Z.pow_add_r by lia. f_equal. lia.
Qed.
Lemma decimal_pos : nearest_decimal (Zpos m * 2 ^ (e + 1074)) n k.
Proof.
  pose proof two_pos as PT. pose proof unit_pos as PU. assert (PD : 0 < down) by (apply tens_pos).
  destruct (div_even_near (Zpos m * 2 ^ Z.max e 0 * up) (two * down)) as (A & B). { now apply Z.mul_pos_pos. } fold k in A, B.
  pose proof magnitude as MG.
  assert (S : forall j, two * (j * (tens (- n) * unit) - Zpos m * 2 ^ (e + 1074) * tens n) = unit * (j * (two * down) - Zpos m * 2 ^ Z.max e 0 * up)).
  { intros j. unfold tens. fold up down. replace (two * (j * (down * unit) - Zpos m * 2 ^ (e + 1074) * up)) with (unit * (j * (two * down)) - (Zpos m * 2 ^ (e + 1074) * two) * up) by ring.
    rewrite MG. ring. }
  assert (SA : two * Z.abs (k * (tens (- n) * unit) - Zpos m * 2 ^ (e + 1074) * tens n) = unit * Z.abs (k * (two * down) - Zpos m * 2 ^ Z.max e 0 * up)).
  { assert (AM : forall c x, 0 < c -> c * Z.abs x = Z.abs (c * x)) by (intros c x H; rewrite Z.abs_mul, (Z.abs_eq c) by lia; reflexivity). rewrite !AM by assumption. f_equal. apply S. }
  assert (TD : tens (- n) = down) by reflexivity.
  apply nearest_scaled; rewrite TD in *; revert A B SA; generalize (Z.abs (k * (two * down) - Zpos m * 2 ^ Z.max e 0 * up)) (Z.abs (k * (down * unit) - Zpos m * 2 ^ (e + 1074) * tens n)); clear -PT PU PD; intros x y A B SA.
  - apply (Z.mul_le_mono_pos_l _ _ two PT). replace (two * (2 * y)) with (2 * (two * y)) by ring. rewrite SA.
    replace (two * (down * unit)) with (unit * (two * down)) by ring. replace (2 * (unit * x)) with (unit * (2 * x)) by ring. apply Z.mul_le_mono_nonneg_l; [lia|exact A].
  - intros E. apply B. apply (Z.mul_cancel_l _ _ unit); [lia|]. replace (unit * (2 * x)) with (2 * (unit * x)) by ring. rewrite <- SA.
    replace (2 * (two * y)) with (two * (2 * y)) by ring. rewrite E. ring.
Qed.
Lemma k_nonneg : 0 <= k.
Proof.
  apply div_even_nonneg; [|apply Z.mul_pos_pos; [apply two_pos|apply tens_pos]].
  apply Z.mul_nonneg_nonneg; [|pose proof (tens_pos n) as P; unfold tens in P; fold up in P; lia]. apply Z.mul_nonneg_nonneg; [lia|apply Z.pow_nonneg; lia].
Qed.
Lemma in_range : -308 <= n -> k * down * unit < too_large * up.
Proof.
  intros Hn. pose proof two_pos as PT. pose proof unit_pos as PU. assert (PD : 0 < down) by (apply tens_pos). assert (PUp : 0 < up) by (apply tens_pos).
  destruct (div_even_near (Zpos m * 2 ^ Z.max e 0 * up) (two * down)) as (A & _). { now apply Z.mul_pos_pos. } fold k in A.
  assert (X : Zpos m * 2 ^ Z.max e 0 < 2 ^ 253 * two).
  { apply (Z.mul_lt_mono_pos_r unit); [exact PU|]. rewrite <- magnitude. replace (2 ^ 253 * two * unit) with (2 ^ 253 * unit * two) by ring.
    apply Z.mul_lt_mono_pos_r; [exact PT|]. eapply Z.le_lt_trans; [|exact SMALL]. cbn [units]. assert (P : 0 <= 2 ^ (e + 1074)) by (apply Z.pow_nonneg; lia).
    rewrite !Z.abs_mul. rewrite (Z.abs_eq (2 ^ (e + 1074))) by exact P. destruct s; cbn [Z.abs Z.opp]; lia. }
  assert (Y : two * (k * down) <= two * (2 ^ 253 * up + down)).
  { assert (Y1 : k * (two * down) <= Zpos m * 2 ^ Z.max e 0 * up + two * down).
    { revert A. assert (0 < two * down) by now apply Z.mul_pos_pos. revert H. generalize (k * (two * down)) (Zpos m * 2 ^ Z.max e 0 * up) (two * down). clear. intros; lia. }
    replace (two * (k * down)) with (k * (two * down)) by ring. eapply Z.le_trans; [exact Y1|].
    replace (two * (2 ^ 253 * up + down)) with (2 ^ 253 * two * up + two * down) by ring. apply Z.add_le_mono_r. apply Z.mul_le_mono_nonneg_r; lia. }
  apply Z.mul_le_mono_pos_l in Y; [|exact PT].
  assert (D8 : down <= 10 ^ 308) by (unfold down; apply Z.pow_le_mono_r; lia).
  assert (TL : too_large = (2 ^ 1024 - 2 ^ 970) * unit). { vm_compute. reflexivity. }
  rewrite TL. replace ((2 ^ 1024 - 2 ^ 970) * unit * up) with ((2 ^ 1024 - 2 ^ 970) * up * unit) by ring. apply Z.mul_lt_mono_pos_r; [exact PU|].
  eapply Z.le_lt_trans; [exact Y|]. apply Z.le_lt_trans with ((2 ^ 253 + 10 ^ 308) * up).
  - rewrite Z.mul_add_distr_r. apply Z.add_le_mono_l. apply Z.le_trans with (10 ^ 308 * 1); [lia|]. apply Z.mul_le_mono_nonneg_l; [apply Z.pow_nonneg; lia|lia].
  - apply Z.mul_lt_mono_pos_r; [exact PUp|]. reflexivity.
Qed.
End Round.

Lemma nearest_opp v n k : nearest_decimal v n k -> nearest_decimal (- v) n (- k).
Proof.
  intros H j. specialize (H (- j)). rewrite Z.even_opp.
  replace (- k * tens (- n) * unit - - v * tens n) with (- (k * tens (- n) * unit - v * tens n)) by ring. rewrite Z.abs_opp.
  replace (Z.abs (j * tens (- n) * unit - - v * tens n)) with (Z.abs (- j * tens (- n) * unit - v * tens n)).
  2: { rewrite <- Z.abs_opp. f_equal. ring. }
  destruct H as (A & B). split; [exact A|]. intros E N. apply B; [exact E|lia].
Qed.

(* a multiple of 2^-280 is a decimal fraction *)
Lemma ibm_multiple w : exists c, ibm_units w = c * 2 ^ 794.
Proof.
  exists (ibm_sign w * (ibm_M w * 2 ^ (4 * ibm_E w))). unfold ibm_units. replace (-24 + 4 * (ibm_E w - 64) + 1074) with (4 * ibm_E w + 794) by lia.
  pose proof (Z.mod_pos_bound (w0 w) 128 ltac:(lia)). rewrite Z.pow_add_r by (unfold ibm_E; lia). ring.
Qed.

Lemma round_decimal w n : word_ok w -> exists k, nearest_decimal (ibm_units w) n k /\ op_result (k * tens (- n) * unit) (tens n) (ibm_round_digits w n).
Proof.
  intros Hw. destruct (ibm_exact w Hw) as (f & E & Wf & F & U). pose proof (wide_ibm w Hw) as SM. rewrite <- U in SM. unfold ibm_round_digits. rewrite E. cbn [bind].
  pose proof unit_pos as PU. pose proof (tens_pos n) as PT. pose proof (tens_pos (- n)) as PT'.
  assert (ZERO : forall r, units f = 0 \/ n < -308 -> float_wf r -> finite r -> units r = 0 -> exists k, nearest_decimal (ibm_units w) n k /\ op_result (k * tens (- n) * unit) (tens n) (from_float_without_underflow r)).
  { intros r C Wr Fr Ur. exists 0. split.
    - rewrite <- U. assert (B : 2 * Z.abs (units f * tens n) < tens (- n) * unit).
      { destruct C as [C|C]; [rewrite C, Z.mul_0_l; cbn [Z.abs]; rewrite Z.mul_0_r; now apply Z.mul_pos_pos|].
        assert (T1 : tens n = 1) by (unfold tens; rewrite Z.max_r by lia; reflexivity). rewrite T1, Z.mul_1_r.
        assert (T2 : 10 ^ 309 <= tens (- n)) by (unfold tens; apply Z.pow_le_mono_r; lia).
        apply Z.lt_le_trans with (2 * (2 ^ 253 * unit)); [lia|]. rewrite Z.mul_assoc. apply Z.mul_le_mono_nonneg_r; [lia|]. eapply Z.le_trans; [|exact T2]. vm_compute. discriminate. }
      apply nearest_scaled; rewrite Z.mul_0_l; revert B; generalize (units f * tens n) (tens (- n) * unit); clear; intros; lia.
    - apply op_result_of. apply rounds_exact; auto. rewrite Ur. ring. }
  destruct f as [s|s| |s m e]; try destruct F; cbn [f_round_digits bind].
  { apply ZERO; auto; exact I. }
  destruct (Z.ltb_spec 323 n) as [L|L].
  - cbn [bind]. destruct (ibm_multiple w) as (c & C). assert (T1 : tens (- n) = 1) by (unfold tens; rewrite Z.max_r by lia; reflexivity).
    assert (T2 : tens n = 5 ^ n * (2 ^ (n - 280) * 2 ^ 280)). { unfold tens. rewrite Z.max_l by lia. change 10 with (5 * 2). rewrite Z.pow_mul_l, <- Z.pow_add_r by lia. do 2 f_equal. lia. }
    assert (UE : unit = 2 ^ 280 * 2 ^ 794) by (unfold unit; rewrite <- Z.pow_add_r by lia; reflexivity).
    assert (X : ibm_units w * tens n = c * 5 ^ n * 2 ^ (n - 280) * unit) by (rewrite C, T2, UE; ring).
    exists (c * 5 ^ n * 2 ^ (n - 280)). rewrite T1, Z.mul_1_r. split.
    + apply nearest_scaled; rewrite T1, Z.mul_1_l, X, Z.sub_diag; cbn [Z.abs]; rewrite Z.mul_0_r; revert PU; generalize unit; clear; intros; lia.
    + apply op_result_of. apply rounds_exact; auto; [exact I|]. rewrite U. exact X.
  - destruct (Z.ltb_spec n (-308)) as [L'|L']. { cbn [bind]. apply ZERO; auto; [reflexivity|exact I]. }
    set (k := div_even (Z.pos m * 2 ^ Z.max e 0 * 10 ^ Z.max n 0) (2 ^ Z.max (- e) 0 * 10 ^ Z.max (- n) 0)).
    pose proof (decimal_pos s m e n Wf) as N. fold k in N. assert (K0 : 0 <= k) by (unfold k; eapply k_nonneg; eassumption).
    pose proof (in_range s m e n Wf SM L') as IR. fold k in IR.
    assert (R : rounds_to ((if s then -1 else 1) * (k * 10 ^ Z.max (- n) 0 * unit)) (10 ^ Z.max n 0) (f_ratio s (k * 10 ^ Z.max (- n) 0) (10 ^ Z.max n 0))).
    { apply f_ratio_rounds; [|exact PT|exact IR]. apply Z.mul_nonneg_nonneg; [exact K0|]. unfold tens in PT'. lia. }
    clearbody k. revert R. generalize (f_ratio s (k * 10 ^ Z.max (- n) 0) (10 ^ Z.max n 0)). intros p R.
    assert (NE : forall q, finite p -> q = Ok p -> exists k0, nearest_decimal (ibm_units w) n k0 /\ op_result (k0 * tens (- n) * unit) (tens n) (do p0 <- q ;; from_float_without_underflow p0)).
    2: { destruct p as [b|b| |b m0 e0]; try (destruct R as (_ & [] & _)); apply NE; first [exact I|reflexivity]. }
    intros q _ ->. cbn [bind]. exists (if s then - k else k). split.
    + rewrite <- U. cbn [units]. destruct s; [|rewrite Z.mul_1_l; exact N]. replace (-1 * (Z.pos m * 2 ^ (e + 1074))) with (- (Z.pos m * 2 ^ (e + 1074))) by ring. now apply nearest_opp.
    + apply op_result_of. unfold tens. destruct s; [|rewrite Z.mul_1_l in R; exact R].
      replace (- k * 10 ^ Z.max (- n) 0 * unit) with (-1 * (k * 10 ^ Z.max (- n) 0 * unit)) by ring. exact R.
Qed.
