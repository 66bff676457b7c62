(* Exactness lemmas about binary64 operations, by integer reasoning. *)
From Coq Require Import ZArith List Bool Lia ZifyBool.
From Verif Require Import Py PyFloat IbmFloat Spec_Ibm.
Import ListNotations.
Open Scope Z_scope.

Lemma digits_log2 m : Z.pos (digits2_pos m) = Z.log2 (Z.pos m) + 1.
Proof.
  induction m as [m IH|m IH|]; cbn [digits2_pos].
  - rewrite Pos2Z.inj_succ, IH, Pos2Z.inj_xI, Z.log2_succ_double by lia. lia.
  - rewrite Pos2Z.inj_succ, IH, Pos2Z.inj_xO, Z.log2_double by lia. lia.
  - reflexivity.
Qed.

Lemma digits_bounds m : let d := Z.pos (digits2_pos m) in
  1 <= d /\ 2 ^ (d - 1) <= Z.pos m < 2 ^ d.
Proof.
  cbv zeta. rewrite digits_log2. pose proof (Z.log2_nonneg (Z.pos m)).
  pose proof (Z.log2_spec (Z.pos m) ltac:(lia)) as H1. split; [lia|].
  replace (Z.log2 (Z.pos m) + 1 - 1) with (Z.log2 (Z.pos m)) by lia.
  unfold Z.succ in H1. lia.
Qed.

Lemma digits_unique m d : 2 ^ (d - 1) <= Z.pos m < 2 ^ d -> 1 <= d -> Z.pos (digits2_pos m) = d.
Proof.
  intros H Hd. rewrite digits_log2.
  rewrite (Z.log2_unique (Z.pos m) (d - 1)); [lia|lia|].
  replace (Z.succ (d - 1)) with d by lia. exact H.
Qed.

Lemma digits_scale m m' k : 0 <= k -> Z.pos m = Z.pos m' * 2 ^ k ->
  Z.pos (digits2_pos m) = Z.pos (digits2_pos m') + k.
Proof.
  intros Hk E. rewrite !digits_log2, E, Z.log2_mul_pow2 by lia. lia.
Qed.

Lemma bounded_spec m e : bounded 53 1024 m e = true <->
  (-1074 <= e <= 971 /\ Z.pos m < 2 ^ 53 /\ (e = -1074 \/ 2 ^ 52 <= Z.pos m)).
Proof.
  unfold bounded, canonical_mantissa, fexp, SpecFloat.emin.
  pose proof (digits_bounds m) as D. cbv zeta in D. set (d := Z.pos (digits2_pos m)) in *.
  rewrite andb_true_iff, <- Zeq_is_eq_bool, Z.leb_le.
  destruct D as (D0 & D1 & D2). split.
  - intros (H1 & H2). assert (Hd : d <= 53) by lia. split; [lia|]. split.
    + eapply Z.lt_le_trans; [exact D2|]. apply Z.pow_le_mono_r; lia.
    + destruct (Z.eq_dec e (-1074)); auto. right. assert (d = 53) by lia.
      replace 52 with (d - 1) by lia. exact D1.
  - intros (H1 & H2 & H3).
    assert (Hd : d - 1 < 53).
    { apply (Z.pow_lt_mono_r_iff 2); try lia. }
    split; [|lia]. destruct H3 as [H3|H3]; [lia|].
    assert (52 < d).
    { apply (Z.pow_lt_mono_r_iff 2); try lia. }
    lia.
Qed.

Fixpoint niter {A} (f : A -> A) (n : nat) (x : A) : A :=
  match n with O => x | S n => niter f n (f x) end.

Lemma niter_add {A} (f : A -> A) a b x : niter f (a + b) x = niter f b (niter f a x).
Proof. revert x. induction a; cbn; intros; auto. Qed.

Lemma iter_pos_nat {A} (f : A -> A) p x : iter_pos f p x = niter f (Pos.to_nat p) x.
Proof.
  revert x. induction p as [p IH|p IH|]; intros x; cbn [iter_pos].
  - rewrite !IH, <- niter_add. rewrite Pos2Nat.inj_xI.
    replace (S (2 * Pos.to_nat p)) with (S (Pos.to_nat p + Pos.to_nat p)) by lia. reflexivity.
  - rewrite !IH, <- niter_add. rewrite Pos2Nat.inj_xO. f_equal. lia.
  - reflexivity.
Qed.

Lemma shr_1_exact m : 0 <= m -> shr_1 (Build_shr_record (2 * m) false false) = Build_shr_record m false false.
Proof. destruct m; cbn; intros; auto; lia. Qed.

Lemma shr_iter_exact n m : 0 <= m ->
  niter shr_1 n (Build_shr_record (m * 2 ^ Z.of_nat n) false false) = Build_shr_record m false false.
Proof.
  intros Hm. induction n as [|n IH].
  - cbn. f_equal. lia.
  - cbn [niter].
    replace (m * 2 ^ Z.of_nat (S n)) with (2 * (m * 2 ^ Z.of_nat n)).
    + rewrite shr_1_exact by (apply Z.mul_nonneg_nonneg; [lia|apply Z.pow_nonneg; lia]). exact IH.
    + rewrite Nat2Z.inj_succ, Z.pow_succ_r by lia. ring.
Qed.

Lemma shr_exact m e k : 0 < m -> 0 <= k ->
  shr (Build_shr_record (m * 2 ^ k) false false) e k = (Build_shr_record m false false, e + k).
Proof.
  intros Hm Hk. destruct k as [|p|p]; [|cbn [shr]|lia].
  - cbn [shr]. rewrite Z.pow_0_r, Z.mul_1_r. f_equal. lia.
  - rewrite iter_pos_nat. f_equal.
    rewrite <- (shr_iter_exact (Pos.to_nat p) m) by lia. do 2 f_equal.
    now rewrite positive_nat_Z.
Qed.

Lemma shr_zero m e k : k <= 0 -> shr m e k = (m, e).
Proof. destruct k; cbn; auto; lia. Qed.

(* rounding an exactly representable value *)
Lemma bra_exact s m e m' e' : bounded 53 1024 m' e' = true -> e <= e' ->
  m = Z.pos m' * 2 ^ (e' - e) ->
  binary_round_aux 53 1024 s m e loc_Exact = S754_finite s m' e'.
Proof.
  intros B He E. unfold binary_round_aux, shr_fexp, shr_record_of_loc.
  assert (Hm : exists p, m = Z.pos p).
  { destruct m; eauto; assert (0 < 2 ^ (e' - e)) by lia; nia. }
  destruct Hm as (p & ->).
  assert (D : Z.pos (digits2_pos p) = Z.pos (digits2_pos m') + (e' - e)) by (apply digits_scale; lia).
  unfold bounded, canonical_mantissa in B. rewrite andb_true_iff, <- Zeq_is_eq_bool, Z.leb_le in B.
  destruct B as (B1 & B2).
  cbn [Zdigits2]. rewrite D.
  replace (Z.pos (digits2_pos m') + (e' - e) + e) with (Z.pos (digits2_pos m') + e') by lia.
  rewrite B1, E, shr_exact by lia.
  cbn [shr_m loc_of_shr_record round_nearest_even]. cbn [Zdigits2].
  replace (e + (e' - e)) with e' by lia. rewrite B1.
  rewrite shr_zero by lia. cbn [shr_m].
  replace (e' <=? 1024 - 53) with true by lia. reflexivity.
Qed.

Lemma shift_pos_spec n p : Z.pos (shift_pos n p) = Z.pos p * 2 ^ Z.pos n.
Proof. rewrite shift_pos_correct. change (Z.pow_pos 2 n) with (2 ^ Z.pos n). lia. Qed.

(* binary_round (no constraint on the exponents) *)
Lemma br_exact s p e m' e' lo : bounded 53 1024 m' e' = true -> lo <= e -> lo <= e' ->
  Z.pos p * 2 ^ (e - lo) = Z.pos m' * 2 ^ (e' - lo) ->
  binary_round 53 1024 s p e = S754_finite s m' e'.
Proof.
  intros B H1 H2 E. unfold binary_round.
  assert (D : Z.pos (digits2_pos p) + e = Z.pos (digits2_pos m') + e').
  { rewrite !digits_log2.
    assert ((e - lo) + Z.log2 (Z.pos p) = (e' - lo) + Z.log2 (Z.pos m')); [|lia].
    rewrite <- !Z.log2_mul_pow2 by lia. now rewrite E. }
  assert (B1 : fexp 53 1024 (Z.pos (digits2_pos m') + e') = e').
  { unfold bounded, canonical_mantissa in B. rewrite andb_true_iff, <- Zeq_is_eq_bool in B. tauto. }
  rewrite D, B1. unfold shl_align.
  destruct (e' - e) as [|k|k] eqn:K.
  - assert (e' = e) as -> by lia. apply bra_exact; auto; [lia|].
    replace (e - e) with 0 by lia. rewrite Z.pow_0_r.
    assert (0 < 2 ^ (e - lo)) by lia. nia.
  - apply bra_exact; auto; [lia|].
    replace (e' - lo) with ((e' - e) + (e - lo)) in E by lia.
    rewrite Z.pow_add_r in E by lia. assert (0 < 2 ^ (e - lo)) by lia. nia.
  - apply bra_exact; auto; [lia|]. rewrite shift_pos_spec.
    replace (e' - e') with 0 by lia.
    replace (e - lo) with ((e - e') + (e' - lo)) in E by lia.
    rewrite Z.pow_add_r in E by lia. assert (0 < 2 ^ (e' - lo)) by lia.
    replace (Z.pos k) with (e - e') by lia. nia.
Qed.

(* --- normal numbers --- *)

Definition nd (m : Z) : Z := Z.log2 m + 1.
Definition nm (m : Z) : positive := Z.to_pos (m * 2 ^ (53 - nd m)).

Lemma nd_bounds m : 0 < m < 2 ^ 53 -> 1 <= nd m <= 53 /\ 2 ^ (nd m - 1) <= m < 2 ^ nd m.
Proof.
  intros H. unfold nd. pose proof (Z.log2_nonneg m).
  pose proof (Z.log2_spec m ltac:(lia)) as L. unfold Z.succ in L.
  assert (Z.log2 m < 53) by (apply Z.log2_lt_pow2; lia).
  replace (Z.log2 m + 1 - 1) with (Z.log2 m) by lia. lia.
Qed.

Lemma nm_spec m : 0 < m < 2 ^ 53 ->
  Z.pos (nm m) = m * 2 ^ (53 - nd m) /\ 2 ^ 52 <= Z.pos (nm m) < 2 ^ 53.
Proof.
  intros H. destruct (nd_bounds m H) as (D & L1 & L2). unfold nm.
  assert (P : 0 < 2 ^ (53 - nd m)) by lia.
  rewrite Z2Pos.id by nia. split; auto.
  replace (2 ^ 52) with (2 ^ (nd m - 1) * 2 ^ (53 - nd m)) by (rewrite <- Z.pow_add_r by lia; f_equal; lia).
  replace (2 ^ 53) with (2 ^ nd m * 2 ^ (53 - nd m)) by (rewrite <- Z.pow_add_r by lia; f_equal; lia).
  nia.
Qed.

Lemma bounded_normal m e : 2 ^ 52 <= Z.pos m < 2 ^ 53 -> -1074 <= e <= 971 -> bounded 53 1024 m e = true.
Proof. intros. apply bounded_spec. lia. Qed.

Lemma normalize_exact n e : 0 < Z.abs n < 2 ^ 53 ->
  -1074 <= e + nd (Z.abs n) - 53 -> e + nd (Z.abs n) - 53 <= 971 ->
  binary_normalize 53 1024 n e false =
  S754_finite (n <? 0) (nm (Z.abs n)) (e + nd (Z.abs n) - 53).
Proof.
  intros H H1 H2. destruct (nm_spec _ H) as (N1 & N2). destruct (nd_bounds _ H) as (D & _).
  destruct n as [|p|p]; cbn [Z.abs] in *; [lia| |]; cbn [binary_normalize].
  - apply (br_exact _ _ _ _ _ (e + nd (Z.pos p) - 53)); try lia.
    + apply bounded_normal; auto.
    + rewrite N1. replace (e - (e + nd (Z.pos p) - 53)) with (53 - nd (Z.pos p)) by lia.
      rewrite Z.sub_diag, Z.pow_0_r. lia.
  - apply (br_exact _ _ _ _ _ (e + nd (Z.pos p) - 53)); try lia.
    + apply bounded_normal; auto.
    + rewrite N1. replace (e - (e + nd (Z.pos p) - 53)) with (53 - nd (Z.pos p)) by lia.
      rewrite Z.sub_diag, Z.pow_0_r. lia.
Qed.

Lemma f_of_int_small n : 0 < Z.abs n < 2 ^ 53 ->
  f_of_int n = Ok (S754_finite (n <? 0) (nm (Z.abs n)) (nd (Z.abs n) - 53)).
Proof.
  intros H. unfold f_of_int. destruct (nd_bounds _ H) as (D & _).
  rewrite normalize_exact by (auto; lia). reflexivity.
Qed.

Definition p52 : positive := 4503599627370496.
Lemma p52_eq : Z.pos p52 = 2 ^ 52. Proof. reflexivity. Qed.

Lemma f_pow2_eq k : -1022 <= k <= 1023 -> f_pow2 k = S754_finite false p52 (k - 52).
Proof.
  intros H. unfold f_pow2. rewrite normalize_exact; cbn [Z.abs].
  - change (nd 1) with 1. change (nm 1) with p52. f_equal. lia.
  - lia.
  - change (nd 1) with 1. lia.
  - change (nd 1) with 1. lia.
Qed.

Lemma binary_pow2 k : 0 <= k <= 1023 -> f_of_int (2 ^ k) = Ok (S754_finite false p52 (k - 52)).
Proof.
  intros H. unfold f_of_int.
  assert (P : 0 < 2 ^ k) by lia.
  destruct (2 ^ k) as [|p|p] eqn:E; [lia| |lia]. cbn [binary_normalize].
  rewrite (br_exact _ _ _ p52 (k - 52) (-52)); try lia; auto.
  - apply bounded_normal; [rewrite p52_eq; lia|lia].
  - rewrite <- E, p52_eq. rewrite <- !Z.pow_add_r by lia. f_equal. lia.
Qed.

Lemma f_of_int_pow16 n : 0 <= n <= 63 -> f_of_int (EXPONENT_BASE ^ n) = Ok (S754_finite false p52 (4 * n - 52)).
Proof.
  intros H. unfold EXPONENT_BASE. change 16 with (2 ^ 4). rewrite <- Z.pow_mul_r by lia.
  apply binary_pow2. lia.
Qed.

Lemma f_mul_pow2 s m e t k : 2 ^ 52 <= Z.pos m < 2 ^ 53 -> -1074 <= e + k <= 971 ->
  f_mul (S754_finite s m e) (S754_finite t p52 (k - 52)) = S754_finite (xorb s t) m (e + k).
Proof.
  intros M R. unfold f_mul, SFmul. apply bra_exact.
  - apply bounded_normal; auto.
  - lia.
  - rewrite Pos2Z.inj_mul, p52_eq. do 2 f_equal. lia.
Qed.

Lemma f_mul_comm x y : f_mul x y = f_mul y x.
Proof.
  destruct x as [s|s| |s m e], y as [t|t| |t m' e']; cbn; try reflexivity; try (now rewrite xorb_comm).
  rewrite xorb_comm, Pos.mul_comm, Z.add_comm. reflexivity.
Qed.

Lemma f_add_comm x y : f_add x y = f_add y x.
Proof.
  destruct x as [s|s| |s m e], y as [t|t| |t m' e']; cbn; try reflexivity.
  - destruct s, t; reflexivity.
  - destruct s, t; reflexivity.
  - rewrite Z.min_comm, Z.add_comm. reflexivity.
Qed.

(* dividing a 53-bit normal number by 2^24 *)
Lemma F24_eq : F24 = S754_finite false p52 (-28).
Proof. vm_compute. reflexivity. Qed.

Lemma f_div_F24 s m e : 2 ^ 52 <= Z.pos m < 2 ^ 53 -> -1000 <= e <= 971 ->
  f_div (S754_finite s m e) F24 = Ok (S754_finite s m (e - 24)).
Proof.
  intros M R. rewrite F24_eq. unfold f_div. cbn [f_is_zero]. f_equal.
  unfold SFdiv, SFdiv_core_binary. cbn [Zdigits2].
  rewrite (digits_unique m 53) by lia.
  rewrite (digits_unique p52 53) by (rewrite ?p52_eq; lia).
  unfold fexp, SpecFloat.emin.
  replace (Z.min (Z.max (53 + e - (53 + -28) - 53) (3 - 1024 - 53)) (e - -28)) with (e - 25) by lia.
  replace (e - -28 - (e - 25)) with 53 by lia.
  change (match 53 with 0 => Z.pos m | Z.pos _ => Z.shiftl (Z.pos m) 53 | Z.neg _ => 0 end)
    with (Z.shiftl (Z.pos m) 53).
  rewrite Z.shiftl_mul_pow2 by lia.
  pose proof (Z_div_mod (Z.pos m * 2 ^ 53) (Z.pos p52) ltac:(lia)) as DM.
  destruct (Z.div_eucl (Z.pos m * 2 ^ 53) (Z.pos p52)) as (q, r).
  destruct DM as (DM & DR). rewrite p52_eq in DM, DR.
  assert (Hr : r = 0) by (change (2 ^ 53) with (2 ^ 52 * 2) in DM; nia).
  assert (Hq : q = Z.pos m * 2) by (change (2 ^ 53) with (2 ^ 52 * 2) in DM; nia).
  subst r q. unfold new_location, new_location_even, new_location_odd.
  change (Zeq_bool 0 0) with true. cbn [Z.even p52]. rewrite xorb_false_r.
  apply bra_exact.
  - apply bounded_normal; auto; lia.
  - lia.
  - replace (e - 24 - (e - 25)) with 1 by lia. reflexivity.
Qed.

(* --- order --- *)

Lemma units_pos_mono m e m' e' : bounded 53 1024 m e = true -> bounded 53 1024 m' e' = true ->
  match Z.compare e e' with Eq => Pos.compare m m' | c => c end
  = Z.compare (Z.pos m * 2 ^ (e + 1074)) (Z.pos m' * 2 ^ (e' + 1074)).
Proof.
  intros B B'. apply bounded_spec in B. apply bounded_spec in B'.
  symmetry. destruct (Z.compare_spec e e') as [->|L|L].
  - assert (0 < 2 ^ (e' + 1074)) by lia.
    change (Pos.compare m m') with (Z.compare (Z.pos m) (Z.pos m')).
    destruct (Z.compare_spec (Z.pos m) (Z.pos m')); [apply Z.compare_eq_iff|apply Z.compare_lt_iff|apply Z.compare_gt_iff]; nia.
  - apply Z.compare_lt_iff. 
    replace (e' + 1074) with ((e + 1074) + (e' - e)) by lia. rewrite (Z.pow_add_r 2 (e + 1074) (e' - e)) by lia.
    assert (0 < 2 ^ (e + 1074)) by lia.
    assert (2 ^ 1 <= 2 ^ (e' - e)) by (apply Z.pow_le_mono_r; lia).
    assert (2 ^ 52 <= Z.pos m') by lia. change (2 ^ 1) with 2 in *.
    assert (Z.pos m < Z.pos m' * 2 ^ (e' - e)) by (apply Z.lt_le_trans with (Z.pos m' * 2); [lia|apply Z.mul_le_mono_nonneg_l; lia]).
    set (P := 2 ^ (e + 1074)) in *. set (Q := 2 ^ (e' - e)) in *. clearbody P Q.
    replace (Z.pos m' * (P * Q)) with ((Z.pos m' * Q) * P) by ring. apply Z.mul_lt_mono_pos_r; auto.
  - apply Z.compare_gt_iff.
    replace (e + 1074) with ((e' + 1074) + (e - e')) by lia. rewrite (Z.pow_add_r 2 (e' + 1074) (e - e')) by lia.
    assert (0 < 2 ^ (e' + 1074)) by lia.
    assert (2 ^ 1 <= 2 ^ (e - e')) by (apply Z.pow_le_mono_r; lia).
    assert (2 ^ 52 <= Z.pos m) by lia. change (2 ^ 1) with 2 in *.
    assert (Z.pos m' < Z.pos m * 2 ^ (e - e')) by (apply Z.lt_le_trans with (Z.pos m * 2); [lia|apply Z.mul_le_mono_nonneg_l; lia]).
    set (P := 2 ^ (e' + 1074)) in *. set (Q := 2 ^ (e - e')) in *. clearbody P Q.
    replace (Z.pos m * (P * Q)) with ((Z.pos m * Q) * P) by ring. apply Z.mul_lt_mono_pos_r; auto.
Qed.

Lemma units_sign s m e : -1074 <= e ->
  units (S754_finite s m e) = (if s then -1 else 1) * (Z.pos m * 2 ^ (e + 1074)) /\
  0 < Z.pos m * 2 ^ (e + 1074).
Proof. intros H. split; [reflexivity|]. assert (0 < 2 ^ (e + 1074)) by lia. nia. Qed.

Lemma compare_units x y : float_wf x -> float_wf y -> finite x -> finite y ->
  SFcompare x y = Some (Z.compare (units x) (units y)).
Proof.
  unfold float_wf. destruct x as [s|s| |s m e], y as [t|t| |t m' e']; cbn [valid_binary finite];
    intros Wx Wy Fx Fy; try contradiction; cbn [SFcompare]; f_equal.
  - pose proof (proj1 (bounded_spec _ _) Wy) as By. destruct (units_sign t m' e' ltac:(lia)) as (E & P). rewrite E.
    change (units (S754_zero s)) with 0. destruct t; symmetry; [apply Z.compare_gt_iff|apply Z.compare_lt_iff]; lia.
  - pose proof (proj1 (bounded_spec _ _) Wx) as Bx. destruct (units_sign s m e ltac:(lia)) as (E & P). rewrite E.
    change (units (S754_zero t)) with 0. destruct s; symmetry; [apply Z.compare_lt_iff|apply Z.compare_gt_iff]; lia.
  - pose proof (proj1 (bounded_spec _ _) Wx) as Bx. pose proof (proj1 (bounded_spec _ _) Wy) as By.
    destruct (units_sign s m e ltac:(lia)) as (-> & P).
    destruct (units_sign t m' e' ltac:(lia)) as (-> & P').
    pose proof (units_pos_mono m e m' e' Wx Wy) as C.
    change (Pos.compare_cont Eq m m') with (Pos.compare m m').
    destruct s, t.
    + replace (-1 * (Z.pos m * 2 ^ (e + 1074))) with (- (Z.pos m * 2 ^ (e + 1074))) by lia.
      replace (-1 * (Z.pos m' * 2 ^ (e' + 1074))) with (- (Z.pos m' * 2 ^ (e' + 1074))) by lia.
      rewrite Z.compare_opp, (Z.compare_antisym (Z.pos m * 2 ^ (e + 1074)) (Z.pos m' * 2 ^ (e' + 1074))), <- C. destruct (e ?= e'); reflexivity.
    + symmetry; apply Z.compare_lt_iff; lia.
    + symmetry; apply Z.compare_gt_iff; lia.
    + rewrite !Z.mul_1_l, <- C. destruct (e ?= e'); reflexivity.
Qed.

Lemma f_lt_units x y : float_wf x -> float_wf y -> finite x -> finite y ->
  f_lt x y = (units x <? units y).
Proof.
  intros. unfold f_lt, SFltb. rewrite compare_units by auto.
  unfold Z.ltb. destruct (units x ?= units y); reflexivity.
Qed.
Lemma f_le_units x y : float_wf x -> float_wf y -> finite x -> finite y ->
  f_le x y = (units x <=? units y).
Proof.
  intros. unfold f_le, SFleb. rewrite compare_units by auto.
  unfold Z.leb. destruct (units x ?= units y); reflexivity.
Qed.
Lemma f_eq_units x y : float_wf x -> float_wf y -> finite x -> finite y ->
  f_eq x y = (units x =? units y).
Proof.
  intros. unfold f_eq, SFeqb. rewrite compare_units by auto.
  destruct (Z.compare_spec (units x) (units y)); lia.
Qed.

(* a non-zero double is determined by its value *)
Lemma units_inj s m e t m' e' : bounded 53 1024 m e = true -> bounded 53 1024 m' e' = true ->
  units (S754_finite s m e) = units (S754_finite t m' e') ->
  S754_finite s m e = S754_finite t m' e'.
Proof.
  intros B B' H. pose proof (proj1 (bounded_spec _ _) B). pose proof (proj1 (bounded_spec _ _) B').
  destruct (units_sign s m e ltac:(lia)) as (E & P). destruct (units_sign t m' e' ltac:(lia)) as (E' & P').
  rewrite E, E' in H. assert (s = t) by (destruct s, t; auto; lia). subst t.
  assert (Q : Z.pos m * 2 ^ (e + 1074) = Z.pos m' * 2 ^ (e' + 1074)) by (destruct s; lia).
  pose proof (units_pos_mono m e m' e' B B') as C. rewrite Q, Z.compare_refl in C.
  destruct (Z.compare_spec e e') as [->|L|L]; try discriminate.
  apply Pos.compare_eq in C. now subst.
Qed.
