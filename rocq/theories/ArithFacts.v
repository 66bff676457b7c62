(* Proofs about the arithmetic of IBM floats with any other numbers. *)
From Coq Require Import ZArith Bool Lia ZifyBool SpecFloat.
From Verif Require Import Py PyFloat IbmFloat IbmNumber Spec_Ibm Spec_IbmNumber FloatFacts RoundFacts IbmFacts IbmArith IbmNumberFacts IbmNumberProps IbmNumberExact
  RoundUnique Spec_Scale RoundAll ScaleFacts Spec_Arith ArithAll.
Open Scope Z_scope.

Lemma int_value n d r : 0 < d -> (Z.abs n < too_large * d -> rounds_to n d r) ->
  (too_large * d <= Z.abs n -> r = S754_infinity (n <? 0)) -> ieee_value n d (float_value r).
Proof.
  intros Hd A B. destruct (Z.lt_ge_cases (Z.abs n) (too_large * d)) as [L|L]; [left|right]; (split; [exact L|]).
  - specialize (A L). exists r. split; [exact A|]. apply finite_value, A.
  - now rewrite (B L).
Qed.

Lemma add_value x y : float_wf x -> float_wf y -> ieee_sum (float_value x) (float_value y) (float_value (f_add x y)).
Proof.
  intros Wx Wy. assert (FIN : finite x -> finite y -> ieee_sum (float_value x) (float_value y) (float_value (f_add x y))).
  { intros Fx Fy. destruct (f_add_all x y Wx Fx Wy Fy) as (A & B). rewrite (finite_value x Fx), (finite_value y Fy). cbn [ieee_sum].
    apply int_value; [lia| |]; rewrite Z.mul_1_r; assumption. }
  destruct x as [s|s| |s m e]; destruct y as [s'|s'| |s' m' e']; try (apply FIN; exact I); clear FIN; try reflexivity.
  destruct s, s'; reflexivity.
Qed.

Lemma opp_value y : float_value (SFopp y) = opposite (float_value y).
Proof. destruct y as [s|s| |s m e]; try reflexivity. cbn [SFopp float_value units opposite]. f_equal. destruct s; cbn [negb]; ring. Qed.
Lemma opp_wf y : float_wf y -> float_wf (SFopp y).
Proof. destruct y; auto. Qed.
Lemma sub_value x y : float_wf x -> float_wf y -> ieee_sum (float_value x) (opposite (float_value y)) (float_value (f_sub x y)).
Proof. intros Wx Wy. rewrite f_sub_add, <- opp_value. apply add_value; auto. now apply opp_wf. Qed.

Lemma div_value x y : float_wf x -> float_wf y -> float_value y <> Num 0 ->
  exists r, f_div x y = Ok r /\ ieee_quotient (float_value x) (float_value y) (float_value r).
Proof.
  intros Wx Wy Ny. assert (FIN : finite x -> finite y -> exists r, f_div x y = Ok r /\ ieee_quotient (float_value x) (float_value y) (float_value r)).
  { intros Fx Fy. rewrite (finite_value y Fy) in Ny. assert (NU : units y <> 0) by congruence.
    destruct (f_div_all x y Wx Fx Wy Fy NU) as (r & E & A & B). exists r. split; [exact E|]. rewrite (finite_value x Fx), (finite_value y Fy). cbn [ieee_quotient].
    assert (AB : Z.abs (units x * unit * Z.sgn (units y)) = Z.abs (units x) * unit).
    { rewrite !Z.abs_mul. pose proof unit_pos as U. rewrite (Z.abs_eq unit) by (clear - U; lia). replace (Z.abs (Z.sgn (units y))) with 1 by (clear - NU; lia). ring. }
    apply int_value; [clear - NU; lia| |]; rewrite AB; [exact A|].
    intros L. rewrite (B L). f_equal. assert (NX : units x <> 0).
    { intros Z0. rewrite Z0, Z.abs_0, Z.mul_0_l in L. assert (Q : 0 < too_large * Z.abs (units y)) by (apply Z.mul_pos_pos; [reflexivity|clear - NU; lia]).
      clear - L Q. revert L Q. generalize (too_large * Z.abs (units y)). lia. }
    rewrite <- (sign_units x Wx Fx NX), <- (sign_units y Wy Fy NU). pose proof unit_pos as U. clear - NX NU U. revert NX NU U. generalize (units x) (units y) unit. intros a b u NA NB U.
    rewrite <- Z.mul_assoc. destruct (Z.ltb_spec a 0), (Z.ltb_spec b 0); cbn [xorb]; symmetry; [apply Z.ltb_ge|apply Z.ltb_lt|apply Z.ltb_lt|apply Z.ltb_ge].
    - replace (Z.sgn b) with (-1) by lia. nia.
    - replace (Z.sgn b) with 1 by lia. nia.
    - replace (Z.sgn b) with (-1) by lia. nia.
    - replace (Z.sgn b) with 1 by lia. nia. }
  destruct y as [s'|s'| |s' m' e']; [now destruct Ny| | |]; destruct x as [s|s| |s m e]; try (apply FIN; exact I); clear FIN; try (eexists; split; reflexivity).
  eexists. split; [reflexivity|]. cbn [float_value SFdiv ieee_quotient]. do 2 f_equal. symmetry. apply (sign_units (S754_finite s' m' e') Wy I).
  intros Z0. apply Ny. cbn [float_value]. now rewrite Z0.
Qed.

Lemma div_zero x y : float_wf y -> float_value y = Num 0 -> f_div x y = Err ZeroDivisionError.
Proof.
  intros W E. destruct y as [s'|s'| |s' m' e']; try discriminate; [reflexivity|]. exfalso.
  pose proof (sign_value s' m' e' W) as S. apply (f_equal (fun a => match a with Num u => u | _ => 1 end)) in E. cbn [float_value] in E. rewrite E in S. lia.
Qed.

Lemma word_value x : word_ok x -> ibm_float x = Ok (decoded x) /\ float_wf (decoded x) /\ float_value (decoded x) = Num (ibm_units x).
Proof.
  intros H. split; [now apply ibm_float_spec|]. destruct (decoded_wf x H) as (W & F). split; [exact W|]. rewrite finite_value by exact F. now rewrite decoded_units.
Qed.

(* Every float, infinities and NaN included. *)
Lemma any_float x g : word_ok x -> float_wf g ->
  (exists r, num_add (NIbm x) (NFloat g) = Ok (NFloat r) /\ num_add (NFloat g) (NIbm x) = Ok (NFloat r) /\
     ieee_sum (Num (ibm_units x)) (float_value g) (float_value r)) /\
  (exists r, num_sub (NIbm x) (NFloat g) = Ok (NFloat r) /\ ieee_sum (Num (ibm_units x)) (opposite (float_value g)) (float_value r)) /\
  (exists r, num_sub (NFloat g) (NIbm x) = Ok (NFloat r) /\ ieee_sum (float_value g) (opposite (Num (ibm_units x))) (float_value r)) /\
  (exists r, num_mul (NIbm x) (NFloat g) = Ok (NFloat r) /\ num_mul (NFloat g) (NIbm x) = Ok (NFloat r) /\
     ieee_product (Num (ibm_units x)) (float_value g) (float_value r)) /\
  (float_value g <> Num 0 -> exists r, num_truediv (NIbm x) (NFloat g) = Ok (NFloat r) /\ ieee_quotient (Num (ibm_units x)) (float_value g) (float_value r)) /\
  (float_value g = Num 0 -> num_truediv (NIbm x) (NFloat g) = Err ZeroDivisionError).
Proof.
  intros Hx Wg. destruct (word_value x Hx) as (E & W & V). rewrite <- !V. repeat split.
  - exists (f_add (decoded x) g). cbn [num_add operator]. unfold num_add, operator, ibm_add_num, ibm_radd. rewrite E. cbn [bind num_float ibm_if is_ibm].
    split; [reflexivity|]. split; [now rewrite f_add_comm|]. now apply add_value.
  - exists (f_sub (decoded x) g). unfold num_sub, operator, ibm_sub_num. rewrite E. split; [reflexivity|]. now apply sub_value.
  - exists (f_sub g (decoded x)). unfold num_sub, operator, ibm_rsub. rewrite E. split; [reflexivity|]. now apply sub_value.
  - exists (f_mul (decoded x) g). unfold num_mul, operator, ibm_mul_num, ibm_rmul. rewrite E. cbn [bind num_float ibm_if is_ibm].
    split; [reflexivity|]. split; [|now apply mul_value]. do 2 f_equal. apply f_mul_comm.
  - intros N. destruct (div_value (decoded x) g W Wg N) as (r & D & Q). exists r. unfold num_truediv, operator, ibm_truediv_num. rewrite E. cbn [bind num_float].
    rewrite D. split; [reflexivity|exact Q].
  - intros Z0. unfold num_truediv, operator, ibm_truediv_num. rewrite E. cbn [bind num_float]. now rewrite (div_zero _ g Wg Z0).
Qed.

Lemma wu_nonfinite r : float_wf r -> match float_value r with Num u => op_result u 1 (from_float_without_underflow r) | _ => from_float_without_underflow r = Err ValueError end.
Proof.
  intros W. destruct r as [s|s| |s m e]; cbn [float_value]; [| destruct s; reflexivity | reflexivity |]; apply op_result_of; (apply rounds_exact; [lia|assumption|exact I|ring]).
Qed.

Lemma div_wf x y r : float_wf x -> float_wf y -> f_div x y = Ok r -> float_wf r.
Proof.
  intros Wx Wy E. destruct y as [t|t| |t m' e']; [discriminate| | |]; destruct x as [s|s| |s m e]; try (injection E as <-; reflexivity).
  destruct (f_div_all _ _ Wx I Wy I) as (r' & E' & A & B).
  - pose proof (sign_value _ _ _ Wy). lia.
  - rewrite E in E'. injection E' as <-.
    destruct (Z.lt_ge_cases (Z.abs (units (S754_finite s m e)) * unit) (too_large * Z.abs (units (S754_finite t m' e')))) as [L|L]; [apply A, L|].
    rewrite (B L). reflexivity.
Qed.

Lemma any_truediv g x : word_ok x -> float_wf g ->
  (ibm_units x = 0 -> num_truediv (NFloat g) (NIbm x) = Err ZeroDivisionError) /\
  (ibm_units x <> 0 -> exists c q, ieee_quotient (float_value g) (Num (ibm_units x)) c /\
     num_truediv (NFloat g) (NIbm x) = (do w <- q ;; Ok (NIbm w)) /\
     match c with Num u => op_result u 1 q | _ => q = Err ValueError end).
Proof.
  intros Hx Wg. destruct (word_value x Hx) as (E & W & V). unfold num_truediv, operator, ibm_rtruediv. rewrite E. cbn [bind num_float]. split.
  - intros Z0. rewrite div_zero; [reflexivity|exact W|]. now rewrite V, Z0.
  - intros N. destruct (div_value g (decoded x) Wg W) as (r & D & Q); [rewrite V; congruence|]. rewrite V in Q.
    exists (float_value r), (from_float_without_underflow r). split; [exact Q|]. rewrite D. cbn [bind ibm_if is_float]. split; [reflexivity|].
    apply wu_nonfinite. now apply (div_wf g (decoded x)).
Qed.

Lemma int_float n g : f_of_int n = Ok g -> num_float (NInt n) = num_float (NFloat g).
Proof. intros E. exact E. Qed.

Lemma any_int x n : word_ok x ->
  (Z.abs n * unit < too_large -> exists g, rounds_to (n * unit) 1 g /\
     (forall op, List.In op (num_add :: num_sub :: num_mul :: num_mod :: num_floordiv :: nil)%list -> op (NIbm x) (NInt n) = op (NIbm x) (NFloat g) /\ op (NInt n) (NIbm x) = op (NFloat g) (NIbm x)) /\
     num_truediv (NIbm x) (NInt n) = num_truediv (NIbm x) (NFloat g) /\
     (ibm_units x = 0 -> num_truediv (NInt n) (NIbm x) = Err ZeroDivisionError) /\
     (ibm_units x <> 0 -> exists r, num_truediv (NInt n) (NIbm x) = Ok (NFloat r) /\ ieee_quotient (Num (units g)) (Num (ibm_units x)) (float_value r))) /\
  (too_large <= Z.abs n * unit ->
     forall op, List.In op (num_add :: num_sub :: num_mul :: num_mod :: num_floordiv :: num_truediv :: nil)%list -> op (NIbm x) (NInt n) = Err OverflowError /\ op (NInt n) (NIbm x) = Err OverflowError).
Proof.
  intros Hx. destruct (word_value x Hx) as (E & W & V). destruct (f_of_int_all n) as (A & B). split.
  - intros L. destruct (A L) as (g & G & R). exists g. split; [exact R|].
    assert (SAME : forall op, List.In op (num_add :: num_sub :: num_mul :: num_mod :: num_floordiv :: nil)%list ->
      op (NIbm x) (NInt n) = op (NIbm x) (NFloat g) /\ op (NInt n) (NIbm x) = op (NFloat g) (NIbm x)).
    { intros op H. cbn [List.In] in H.
      destruct H as [<-|[<-|[<-|[<-|[<-|[]]]]]]; (split;
        [unfold num_add, num_sub, num_mul, num_mod, num_floordiv, operator, ibm_add_num, ibm_sub_num, ibm_mul_num, ibm_mod_num, ibm_floordiv
        |unfold num_add, num_sub, num_mul, num_mod, num_floordiv, operator, ibm_radd, ibm_rsub, ibm_rmul, ibm_rmod, ibm_rfloordiv]; rewrite (int_float n g G); reflexivity). }
    split; [exact SAME|]. repeat split.
    + unfold num_truediv, operator, ibm_truediv_num. now rewrite (int_float n g G).
    + intros Z0. unfold num_truediv, operator, ibm_rtruediv. rewrite (int_float n g G), E. cbn [bind num_float]. rewrite div_zero; [reflexivity|exact W|]. now rewrite V, Z0.
    + intros N. destruct R as (Wg & Fg & _). destruct (div_value g (decoded x) Wg W) as (r & D & Q); [rewrite V; congruence|]. rewrite V, (finite_value g Fg) in Q.
      exists r. split; [|exact Q]. unfold num_truediv, operator, ibm_rtruediv. rewrite (int_float n g G), E. cbn [bind num_float]. rewrite D. reflexivity.
  - intros L op H. specialize (B L). cbn [List.In] in H. destruct H as [<-|[<-|[<-|[<-|[<-|[<-|[]]]]]]];
      (split;
        [unfold num_add, num_sub, num_mul, num_mod, num_floordiv, num_truediv, operator, ibm_add_num, ibm_sub_num, ibm_mul_num, ibm_mod_num, ibm_floordiv, ibm_truediv_num
        |unfold num_add, num_sub, num_mul, num_mod, num_floordiv, num_truediv, operator, ibm_radd, ibm_rsub, ibm_rmul, ibm_rmod, ibm_rfloordiv, ibm_rtruediv]; cbn [num_float]; rewrite ?E, B; reflexivity).
Qed.

Lemma floor_value r : float_wf r -> f_floor r = match float_value r with Num u => Ok (u / unit) | Inf _ => Err OverflowError | NoNumber => Err ValueError end.
Proof.
  intros W. destruct r as [s|s| |s m e]; try reflexivity. cbn [float_value]. now apply (f_floor_units (S754_finite s m e) W I).
Qed.

Lemma any_floordiv x g : word_ok x -> float_wf g ->
  (float_value g <> Num 0 -> exists c, ieee_quotient (Num (ibm_units x)) (float_value g) c /\
     num_floordiv (NIbm x) (NFloat g) = match c with Num u => Ok (NInt (u / unit)) | Inf _ => Err OverflowError | NoNumber => Err ValueError end) /\
  (float_value g = Num 0 -> num_floordiv (NIbm x) (NFloat g) = Err ZeroDivisionError) /\
  (ibm_units x <> 0 -> exists c, ieee_quotient (float_value g) (Num (ibm_units x)) c /\
     num_floordiv (NFloat g) (NIbm x) = match c with Num u => Ok (NInt (u / unit)) | Inf _ => Err OverflowError | NoNumber => Err ValueError end) /\
  (ibm_units x = 0 -> num_floordiv (NFloat g) (NIbm x) = Err ZeroDivisionError).
Proof.
  intros Hx Wg. destruct (word_value x Hx) as (E & W & V). unfold num_floordiv, operator, ibm_floordiv, ibm_rfloordiv. rewrite E. cbn [bind num_float]. repeat split.
  - intros N. destruct (div_value (decoded x) g W Wg N) as (r & D & Q). rewrite V in Q. exists (float_value r). split; [exact Q|].
    rewrite D. cbn [bind]. rewrite floor_value by (now apply (div_wf (decoded x) g)). now destruct (float_value r).
  - intros Z0. now rewrite (div_zero _ g Wg Z0).
  - intros N. destruct (div_value g (decoded x) Wg W) as (r & D & Q); [rewrite V; congruence|]. rewrite V in Q. exists (float_value r). split; [exact Q|].
    rewrite D. cbn [bind]. rewrite floor_value by (now apply (div_wf g (decoded x))). now destruct (float_value r).
  - intros Z0. rewrite div_zero; [reflexivity|exact W|]. now rewrite V, Z0.
Qed.

(* --- remainders of any floats --- *)

Lemma double_top M k : Z.abs M < 2 ^ 53 -> 0 <= k <= 2045 -> exists g, float_wf g /\ finite g /\ units g = M * 2 ^ k.
Proof.
  intros HM Hk. destruct (Z.eq_dec M 0) as [->|N].
  { exists (S754_zero false). repeat split. }
  assert (Sg : (if M <? 0 then -1 else 1) * Z.abs M = M) by (destruct (M <? 0) eqn:S; lia).
  assert (HA : 0 < Z.abs M < 2 ^ 53) by lia. destruct (nd_bounds _ HA) as (D & L1 & L2).
  set (t := Z.min k (53 - nd (Z.abs M))).
  assert (P : 0 < 2 ^ t) by (apply Z.pow_pos_nonneg; lia).
  assert (B1 : Z.abs M * 2 ^ t < 2 ^ 53).
  { apply Z.lt_le_trans with (2 ^ nd (Z.abs M) * 2 ^ t); [apply Z.mul_lt_mono_pos_r; lia|].
    rewrite <- Z.pow_add_r by lia. apply Z.pow_le_mono_r; lia. }
  assert (B2 : k - t - 1074 = -1074 \/ 2 ^ 52 <= Z.abs M * 2 ^ t).
  { destruct (Z.le_gt_cases k (53 - nd (Z.abs M))); [left; lia|right].
    replace 52 with (nd (Z.abs M) - 1 + t) by lia. rewrite Z.pow_add_r by lia. apply Z.mul_le_mono_nonneg_r; lia. }
  exists (fl (M <? 0) (Z.abs M * 2 ^ t) (k - t - 1074)).
  destruct (fl_wf_top (M <? 0) (Z.abs M * 2 ^ t) (k - t - 1074)) as (A & B & C & _); auto; try lia.
  split; auto. split; auto. rewrite C, <- Z.mul_assoc, <- Z.pow_add_r by lia.
  replace (t + (k - t - 1074 + 1074)) with k by lia. rewrite Z.mul_assoc, Sg. reflexivity.
Qed.
Lemma parts_top f : float_wf f -> finite f -> exists M k, Z.abs M < 2 ^ 53 /\ 0 <= k <= 2045 /\ units f = M * 2 ^ k.
Proof.
  intros Wf F. destruct f as [s|s| |s m e]; cbn [finite] in F; try contradiction.
  - exists 0, 0. cbn. lia.
  - apply bounded_spec in Wf. exists ((if s then -1 else 1) * Z.pos m), (e + 1074). split; [destruct s; lia|]. split; [lia|cbn [units]; ring].
Qed.
Lemma rem_top x y : float_wf x -> finite x -> float_wf y -> finite y -> units y <> 0 ->
  exists g, float_wf g /\ finite g /\ units g = Z.rem (units x) (units y).
Proof.
  intros Wx Fx Wy Fy Ny. destruct (parts_top x Wx Fx) as (A & a & HA & Ha & ->). destruct (parts_top y Wy Fy) as (B & b & HB & Hb & E).
  rewrite E in *. destruct (rem_small (2 ^ 53) A a B b) as (R & k & HR & Hk & ->); try lia.
  apply double_top; lia.
Qed.

Lemma fmod_top x y : float_wf x -> finite x -> float_wf y -> finite y -> units y <> 0 ->
  float_wf (f_fmod x y) /\ finite (f_fmod x y) /\ units (f_fmod x y) = Z.rem (units x) (units y).
Proof.
  intros Wx Fx Wy Fy Ny. destruct (rem_top x y) as (g & Wg & Fg & Ug); auto.
  destruct y as [t|t| |t m' e']; cbn [finite] in Fy; try contradiction.
  destruct x as [s|s| |s m e]; cbn [finite] in Fx; try contradiction.
  - cbn [f_fmod units]. rewrite Z.rem_0_l by auto. repeat split.
  - unfold f_fmod. rewrite !f_scaled_units.
    set (r := Z.rem (units (S754_finite s m e)) (units (S754_finite t m' e'))) in *.
    pose proof (finite_bound g Wg Fg) as Br. rewrite Ug in Br. clearbody r.
    destruct (normalize_all r (-1074) s ltac:(lia)) as (R & _). change (2 ^ (-1074 + 1074)) with 1 in R. rewrite !Z.mul_1_r in R. specialize (R Br).
    split; [apply R|split; [apply R|]]. etransitivity; [|exact Ug]. apply (rounds_exact_of r 1); auto; lia.
Qed.

Lemma mod_top x y : float_wf x -> finite x -> float_wf y -> finite y -> units y <> 0 ->
  exists r, f_mod x y = Ok r /\ rounds_to (units x mod units y) 1 r.
Proof.
  intros Wx Fx Wy Fy Ny. destruct (fmod_top x y) as (Wm & Fm & Um); auto.
  destruct (zero_wf false) as (W0 & F0). destruct (mod_of_rem (units x) (units y) Ny) as (M1 & M2).
  unfold f_mod. rewrite f_is_zero_units by auto. replace (units y =? 0) with false by lia.
  rewrite f_is_zero_units, !f_lt_units by auto. change (units (S754_zero false)) with 0. rewrite Um.
  set (r := Z.rem (units x) (units y)) in *. clearbody r. destruct (r =? 0) eqn:R0.
  - exists (S754_zero (units y <? 0)). split; auto. rewrite M1 by lia. cbn [units].
    destruct (zero_wf (units y <? 0)). apply rounds_exact; auto; cbn [units]; lia.
  - destruct (Bool.eqb (units y <? 0) (r <? 0)) eqn:E.
    + apply eqb_prop in E. exists (f_fmod x y). split; auto. rewrite M1 by auto.
      apply rounds_exact; auto; lia.
    + apply eqb_false_iff in E. exists (f_add (f_fmod x y) y). split; auto. rewrite M2 by lia.
      rewrite <- Um. apply f_add_all; auto. rewrite Um, <- M2 by lia.
      pose proof (Z.mod_pos_bound (units x) (units y)). pose proof (Z.mod_neg_bound (units x) (units y)).
      pose proof (finite_bound y Wy Fy) as Ly. clear - H H0 Ly Ny. revert Ly. generalize too_large. lia.
Qed.

Lemma mod_value x y : float_wf x -> float_wf y -> float_value y <> Num 0 ->
  exists r, f_mod x y = Ok r /\ float_remainder (float_value x) (float_value y) (float_value r).
Proof.
  intros Wx Wy Ny. assert (FIN : finite x -> finite y -> exists r, f_mod x y = Ok r /\ float_remainder (float_value x) (float_value y) (float_value r)).
  { intros Fx Fy. rewrite (finite_value y Fy) in Ny. destruct (mod_top x y Wx Fx Wy Fy ltac:(congruence)) as (r & E & R). exists r. split; [exact E|].
    rewrite (finite_value x Fx), (finite_value y Fy). cbn [float_remainder]. exists r. split; [exact R|]. apply finite_value, R. }
  destruct y as [t|t| |t m' e']; [now destruct Ny| | |]; destruct x as [s|s| |s m e]; try (apply FIN; exact I); clear FIN; try (eexists; split; [reflexivity|reflexivity]).
  - destruct t; (eexists; split; [reflexivity|reflexivity]).
  - destruct t; (eexists; split; [reflexivity|reflexivity]).
  - pose proof (sign_value s m e Wx) as S. cbn [float_value float_remainder].
    assert (NZ : (units (S754_finite s m e) =? 0) = false) by lia. assert (SG : (units (S754_finite s m e) <? 0) = s) by (destruct s; lia).
    rewrite NZ, SG. cbn [orb]. destruct s, t; (eexists; split; [reflexivity|reflexivity]).
  - destruct t; (eexists; split; [reflexivity|reflexivity]).
  - destruct t; (eexists; split; [reflexivity|reflexivity]).
Qed.
Lemma mod_zero x y : float_wf y -> float_value y = Num 0 -> f_mod x y = Err ZeroDivisionError.
Proof.
  intros W E. pose proof (div_zero x y W E) as D. unfold f_div in D. unfold f_mod. destruct (f_is_zero y); [reflexivity|discriminate].
Qed.

Lemma any_mod x g : word_ok x -> float_wf g ->
  (float_value g <> Num 0 -> exists r, num_mod (NIbm x) (NFloat g) = Ok (NFloat r) /\ float_remainder (Num (ibm_units x)) (float_value g) (float_value r)) /\
  (float_value g = Num 0 -> num_mod (NIbm x) (NFloat g) = Err ZeroDivisionError) /\
  (ibm_units x <> 0 -> exists r, num_mod (NFloat g) (NIbm x) = Ok (NFloat r) /\ float_remainder (float_value g) (Num (ibm_units x)) (float_value r)) /\
  (ibm_units x = 0 -> num_mod (NFloat g) (NIbm x) = Err ZeroDivisionError).
Proof.
  intros Hx Wg. destruct (word_value x Hx) as (E & W & V). unfold num_mod, operator, ibm_mod_num, ibm_rmod. rewrite E. cbn [bind num_float is_ibm]. repeat split.
  - intros N. destruct (mod_value (decoded x) g W Wg N) as (r & D & Q). rewrite V in Q. exists r. split; [|exact Q]. rewrite D. reflexivity.
  - intros Z0. now rewrite (mod_zero _ g Wg Z0).
  - intros N. destruct (mod_value g (decoded x) Wg W) as (r & D & Q); [rewrite V; congruence|]. rewrite V in Q. exists r. split; [|exact Q]. rewrite D. reflexivity.
  - intros Z0. rewrite mod_zero; [reflexivity|exact W|]. now rewrite V, Z0.
Qed.

(* --- order against any int --- *)

Lemma any_order x n : word_ok x ->
  (Z.abs n * unit < too_large -> exists g, rounds_to (n * unit) 1 g /\ ordered_as (NIbm x) (NInt n) (ibm_units x) (units g)) /\
  (too_large <= Z.abs n * unit -> order_fails (NIbm x) (NInt n) OverflowError).
Proof.
  intros Hx. destruct (word_value x Hx) as (E & W & V). destruct (f_of_int_all n) as (A & B). destruct (decoded_wf x Hx) as (Wx & Fx). split.
  - intros L. destruct (A L) as (g & G & R). exists g. split; [exact R|]. destruct R as (Wg & Fg & _).
    unfold ordered_as, num_lt, num_le, num_gt, num_ge, comparison. cbn [num_float]. rewrite E, G. cbn [bind].
    rewrite !f_lt_units, !f_le_units, !decoded_units by auto. repeat split.
  - intros L. specialize (B L). unfold order_fails, num_lt, num_le, num_gt, num_ge, comparison. cbn [num_float]. rewrite E, B. repeat split.
Qed.
