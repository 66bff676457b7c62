(* Proofs for C132. *)
From Coq Require Import ZArith List Bool Lia ZifyBool.
From Verif Require Import Py PyFloat IbmFloat IbmNumber AlmostEqual Spec_Ibm FloatFacts RoundFacts IbmFacts IbmArith IbmNumberFacts IbmNumberProps Spec_Scale ArithAll Power Spec_Power.
Import ListNotations.
Open Scope Z_scope.

Lemma unit_pos : 0 < unit.
Proof. unfold unit. apply Z.pow_pos_nonneg; lia. Qed.
Lemma unit_pow_pos n : 0 <= n -> 0 < unit ^ n.
Proof. intros H. apply Z.pow_pos_nonneg; [exact unit_pos|exact H]. Qed.
Lemma one_wf : float_wf f_one /\ finite f_one /\ units f_one = unit.
Proof. split; [reflexivity|]. split; [exact I|]. vm_compute. reflexivity. Qed.

Lemma power_unique u n v w : 0 <= n -> is_power u n v -> is_power u n w -> v = w.
Proof.
  unfold is_power. intros Hn A B. assert (P := unit_pow_pos n Hn). apply (Z.mul_cancel_r _ _ (unit ^ n)); lia.
Qed.
Lemma power_opp u n v : 0 <= n -> is_power u n v -> is_power (- u) n (if Z.odd n then - v else v).
Proof.
  unfold is_power. intros Hn A. assert (E : Z.even n = negb (Z.odd n)) by (rewrite <- Z.negb_odd; reflexivity). destruct (Z.odd n) eqn:O.
  - rewrite Z.pow_opp_odd by (apply Z.odd_spec; exact O). lia.
  - rewrite Z.pow_opp_even by (apply Z.even_spec; exact E). exact A.
Qed.

Lemma integer_int y n : units y = n * unit -> f_is_integer y = true.
Proof. intros E. unfold f_is_integer. rewrite f_scaled_units, E. fold unit. rewrite Z.mod_mul by (assert (P := unit_pos); lia). reflexivity. Qed.
Lemma odd_int y n : 0 <= n -> units y = n * unit -> f_is_odd y = Z.odd n.
Proof.
  intros Hn E. unfold f_is_odd. rewrite f_scaled_units, E. assert (P := unit_pos). rewrite Z.abs_eq by (apply Z.mul_nonneg_nonneg; lia).
  replace (2 ^ 1075) with (2 * unit) by (unfold unit; change 1075 with (1 + 1074); rewrite (Z.pow_add_r 2 1 1074) by lia; reflexivity).
  fold unit. rewrite Z.mul_mod_distr_r by lia. rewrite Zmod_odd. destruct (Z.odd n); [rewrite Z.mul_1_l; apply Z.eqb_refl|].
  apply Z.eqb_neq. lia.
Qed.

Lemma zero_units : float_wf (S754_zero false) /\ finite (S754_zero false) /\ units (S754_zero false) = 0.
Proof. repeat split. Qed.
Lemma lt_zero x : float_wf x -> finite x -> f_lt x (S754_zero false) = (units x <? 0).
Proof.
  intros W F. destruct zero_units as (Wz & Fz & Uz). assert (L := f_lt_units x (S754_zero false) W Wz F Fz). rewrite L, Uz. reflexivity.
Qed.
Lemma eq_one x : float_wf x -> finite x -> f_eq x f_one = (units x =? unit).
Proof.
  intros W F. destruct one_wf as (Wz & Fz & Uz). assert (L := f_eq_units x f_one W Wz F Fz). rewrite L, Uz. reflexivity.
Qed.

Lemma ieee2ibm_units f g : float_wf f -> finite f -> float_wf g -> finite g -> units f = units g -> ieee2ibm f = ieee2ibm g.
Proof.
  intros Wf Ff Wg Fg E. destruct (Z.eq_dec (units f) 0) as [Z0|N].
  - rewrite !ieee2ibm_zero; try assumption; [reflexivity|congruence].
  - f_equal. destruct f as [s|s| |s m e], g as [t|t| |t m' e']; try contradiction; cbn [units] in N, E; try (exfalso; apply N; reflexivity); try (exfalso; apply N; exact E).
    apply units_inj; [exact Wf|exact Wg|exact E].
Qed.

Lemma product_bound x : word_ok x -> Z.abs (ibm_units x * ibm_units x) < 2 ^ (1023 + 2148).
Proof.
  intros W. assert (A := ibm_max_bound x W). assert (B := ibm_max_lt). rewrite Z.abs_mul. assert (L : Z.abs (ibm_units x) <= 2 ^ 1326) by lia.
  assert (P := Z.abs_nonneg (ibm_units x)). revert L P. generalize (Z.abs (ibm_units x)). clear. intros z L P.
  apply Z.le_lt_trans with (2 ^ 1326 * 2 ^ 1326); [apply Z.mul_le_mono_nonneg; assumption|].
  rewrite <- Z.pow_add_r by discriminate. apply Z.pow_lt_mono_r; reflexivity || discriminate.
Qed.
Lemma units_eq f g : float_wf f -> finite f -> float_wf g -> finite g -> units f = units g -> units f <> 0 -> f = g.
Proof.
  intros Wf Ff Wg Fg E N. destruct f as [s|s| |s m e], g as [t|t| |t m' e']; try contradiction; cbn [units] in N, E; try (exfalso; apply N; reflexivity); try (exfalso; apply N; exact E).
  apply units_inj; [exact Wf|exact Wg|exact E].
Qed.
Lemma is_integer_units y : f_is_integer y = (units y mod unit =? 0).
Proof. unfold f_is_integer. rewrite f_scaled_units. reflexivity. Qed.

Section WithPow.
Variable c_pow : float -> float -> res float.
Variable complex_pow : float -> float -> res (float * float).

Lemma pow_int x y n g : finds_exact_powers c_pow -> float_wf x -> finite x -> float_wf y -> finite y -> 0 <= n -> units y = n * unit ->
  float_wf g -> finite g -> is_power (units x) n (units g) ->
  exists r, float_pow c_pow complex_pow x y = Ok (PNumber (NFloat r)) /\ float_wf r /\ finite r /\ units r = units g.
Proof.
  intros X Wx Fx Wy Fy Hn Ey Wg Fg P. assert (U := unit_pos). destruct one_wf as (W1 & F1 & U1). unfold float_pow.
  rewrite (f_is_zero_units y Wy Fy), Ey. destruct (n * unit =? 0) eqn:N0.
  { assert (n = 0) by (apply Z.eqb_eq in N0; apply Z.mul_eq_0 in N0; lia). subst n. exists f_one. split; [reflexivity|].
    split; [exact W1|]. split; [exact F1|]. rewrite U1. unfold is_power in P. rewrite !Z.pow_0_r in P. lia. }
  assert (Np : 0 < n) by (destruct (Z.eq_dec n 0); [subst; discriminate N0|lia]). clear N0.
  assert (T : f_isnan x = false /\ f_isinf x = false /\ f_isnan y = false /\ f_isinf y = false)
    by (destruct x, y; try contradiction; repeat split).
  destruct T as (-> & -> & -> & ->). rewrite (f_is_zero_units x Wx Fx). destruct (units x =? 0) eqn:X0.
  { apply Z.eqb_eq in X0. assert (Z0 : units g = 0).
    { unfold is_power in P. rewrite X0, Z.pow_0_l in P by lia. assert (Q := unit_pow_pos n Hn). apply Z.mul_eq_0 in P. lia. }
    rewrite (lt_zero y Wy Fy), Ey. replace (n * unit <? 0) with false by (symmetry; apply Z.ltb_ge; apply Z.mul_nonneg_nonneg; lia).
    eexists. split; [reflexivity|]. rewrite Z0. destruct (f_is_odd y); [repeat split; assumption|exact zero_units]. }
  apply Z.eqb_neq in X0. rewrite (lt_zero x Wx Fx), (integer_int y n Ey), (odd_int y n Hn Ey). rewrite andb_false_r.
  set (neg := units x <? 0). set (x' := if neg then SFopp x else x). set (odd := neg && Z.odd n).
  assert (Wx' : float_wf x' /\ finite x' /\ units x' = Z.abs (units x)).
  { unfold x', neg. destruct (units x <? 0) eqn:S; [|split; [exact Wx|split; [exact Fx|lia]]].
    split; [apply opp_wf; exact Wx|]. split; [apply opp_finite; exact Fx|]. rewrite opp_units. lia. }
  destruct Wx' as (Wx' & Fx' & Ux').
  set (g' := if odd then SFopp g else g).
  assert (Wg' : float_wf g' /\ finite g' /\ is_power (units x') n (units g')).
  { split; [unfold g'; destruct odd; [apply opp_wf|]; exact Wg|]. split; [unfold g'; destruct odd; [apply opp_finite|]; exact Fg|].
    unfold g', odd. rewrite Ux'. unfold neg. destruct (units x <? 0) eqn:S; cbn [andb].
    - rewrite Z.abs_neq by lia. assert (Q := power_opp _ _ _ Hn P). destruct (Z.odd n); [rewrite opp_units|]; exact Q.
    - rewrite Z.abs_eq by lia. exact P. }
  destruct Wg' as (Wg' & Fg' & Pg').
  assert (Back : forall f, float_wf f -> finite f -> units f = units g' ->
    let h := if odd then SFopp f else f in float_wf h /\ finite h /\ units h = units g).
  { intros f Wf Ff Uf. cbv zeta. unfold g' in Uf. destruct odd; [|split; [exact Wf|split; [exact Ff|exact Uf]]].
    split; [apply opp_wf; exact Wf|]. split; [apply opp_finite; exact Ff|]. rewrite opp_units in *. lia. }
  rewrite (eq_one x' Wx' Fx'). destruct (units x' =? unit) eqn:E1.
  - apply Z.eqb_eq in E1. eexists. split; [reflexivity|]. apply Back; [exact W1|exact F1|]. rewrite U1.
    apply (power_unique unit n); [exact Hn| |rewrite <- E1 at 1; exact Pg']. unfold is_power. lia.
  - rewrite (X x' y n g' Wx' Fx' ltac:(lia) Wy Fy Hn Ey Wg' Fg' Pg'). cbn [bind].
    eexists. split; [reflexivity|]. apply Back; [exact Wg'|exact Fg'|reflexivity].
Qed.

Lemma num_float_value x v : has_value x v -> exists f, num_float x = Ok f /\ float_wf f /\ finite f /\ units f = v.
Proof.
  destruct x as [n|f|w]; cbn [has_value num_float].
  - intros [A ->]. destruct (f_of_int_exact n A) as (f & E & W & F & U). exists f. split; [exact E|]. split; [exact W|]. split; [exact F|exact U].
  - intros (W & F & U). exists f. split; [reflexivity|]. split; [exact W|]. split; [exact F|exact U].
  - intros [W <-]. rewrite ibm_float_spec by exact W. destruct (decoded_wf w W). exists (decoded w).
    split; [reflexivity|]. split; [assumption|]. split; [assumption|]. apply decoded_units. exact W.
Qed.

Lemma pow_exact x y u n g : finds_exact_powers c_pow -> has_value x u -> has_value y (n * unit) -> 0 <= n ->
  float_wf g -> finite g -> is_power u n (units g) ->
  match x, y with
  | NIbm _, NIbm _ =>
      (Z.abs (units g) <= ibm_max -> exists w, num_pow c_pow complex_pow x y = Ok (PNumber (NIbm w)) /\ truncation (units g) w) /\
      (ibm_max < Z.abs (units g) -> num_pow c_pow complex_pow x y = Err OverflowError)
  | NIbm _, _ | _, NIbm _ => exists f, num_pow c_pow complex_pow x y = Ok (PNumber (NFloat f)) /\ float_wf f /\ finite f /\ units f = units g
  | _, _ => True
  end.
Proof.
  intros X Hx Hy Hn Wg Fg P. destruct (num_float_value x u Hx) as (a & Ea & Wa & Fa & <-).
  destruct (num_float_value y _ Hy) as (b & Eb & Wb & Fb & Ub).
  destruct (pow_int a b n g X Wa Fa Wb Fb Hn Ub Wg Fg P) as (r & R & Wr & Fr & Ur).
  destruct x as [i|f|w], y as [j|h|z]; try exact I; unfold num_pow, ibm_pow, ibm_rpow; rewrite ?Ea, ?Eb;
    cbn [num_float] in Ea, Eb; rewrite ?Ea, ?Eb; cbn [bind]; rewrite R; cbn [bind is_ibm];
    try (exists r; split; [reflexivity|]; split; [exact Wr|]; split; [exact Fr|exact Ur]).
  destruct (wu_spec r Wr Fr) as [A B]. rewrite Ur in A, B. split.
  - intros L. destruct (A L) as (v & E & T & _). exists v. rewrite E. split; [reflexivity|exact T].
  - intros L. rewrite (B L). reflexivity.
Qed.

(* the power of a number to 2 *)
Lemma square_double x : word_ok x -> exists g, float_wf g /\ finite g /\ is_power (ibm_units x) 2 (units g) /\ rounds_to (ibm_units x * ibm_units x) unit g.
Proof.
  intros W. assert (HM : 0 <= ibm_M x < 2 ^ 24) by (unfold word_ok, ibm_M in *; lia).
  assert (HE : 0 <= ibm_E x < 128) by (unfold ibm_E; apply Z.mod_pos_bound; lia).
  destruct (double_of (ibm_M x * ibm_M x) (8 * ibm_E x + 514)) as (g & Wg & Fg & Ug); [nia|lia|].
  assert (E : units g * unit = ibm_units x * ibm_units x).
  { rewrite Ug. unfold ibm_units, unit. replace (ibm_sign x * (ibm_M x * 2 ^ (-24 + 4 * (ibm_E x - 64) + 1074)) * (ibm_sign x * (ibm_M x * 2 ^ (-24 + 4 * (ibm_E x - 64) + 1074))))
      with (ibm_M x * ibm_M x * (2 ^ (-24 + 4 * (ibm_E x - 64) + 1074) * 2 ^ (-24 + 4 * (ibm_E x - 64) + 1074))) by (unfold ibm_sign; destruct (w0 x <? 128); ring).
    rewrite <- Z.mul_assoc, <- !Z.pow_add_r by lia. do 2 f_equal. lia. }
  exists g. split; [exact Wg|]. split; [exact Fg|]. split.
  - unfold is_power. rewrite !Z.pow_2_r, Z.mul_assoc, E. reflexivity.
  - split; [exact Wg|]. split; [exact Fg|]. intros h Wh Fh. rewrite E, Z.sub_diag. split; [lia|]. intros Q N. destruct N.
    assert (U := unit_pos). apply (Z.mul_cancel_r _ _ unit); lia.
Qed.

Lemma pow_square x y : finds_exact_powers c_pow -> word_ok x -> word_ok y -> ibm_units y = 2 * unit ->
  num_pow c_pow complex_pow (NIbm x) (NIbm y) = do w <- ibm_mul x x ;; Ok (PNumber (NIbm w)).
Proof.
  intros X Wx Wy Uy. destruct (square_double x Wx) as (g & Wg & Fg & P & R).
  assert (A := pow_int (decoded x) (decoded y) 2 g X). destruct (decoded_wf x Wx) as [Dx Fx], (decoded_wf y Wy) as [Dy Fy].
  rewrite !decoded_units in A by assumption. destruct (A Dx Fx Dy Fy ltac:(lia) Uy Wg Fg P) as (r & Er & Wr & Fr & Ur).
  assert (M := f_mul_rounds (decoded x) (decoded x) Dx Fx Dx Fx). rewrite !decoded_units in M by assumption. specialize (M (product_bound x Wx)).
  assert (Q : units (f_mul (decoded x) (decoded x)) = units g).
  { apply (rounds_exact_of (ibm_units x * ibm_units x) unit); [exact unit_pos| |exact Wg|exact Fg|].
    - apply M.
    - unfold is_power in P. rewrite !Z.pow_2_r, Z.mul_assoc in P. clear - P. assert (U := unit_pos). revert P. generalize (ibm_units x * ibm_units x). intros z P. apply (Z.mul_cancel_r _ _ unit); lia. }
  unfold num_pow, ibm_pow, ibm_mul, ibm_op. cbn [num_float]. rewrite !ibm_float_spec by assumption. cbn [bind]. rewrite Er. cbn [bind is_ibm].
  rewrite <- Ur in Q.
  assert (Mw : float_wf (f_mul (decoded x) (decoded x)) /\ finite (f_mul (decoded x) (decoded x))).
  { split; apply M. }
  f_equal. unfold from_float_without_underflow. rewrite (ieee2ibm_units r (f_mul (decoded x) (decoded x))); [reflexivity|tauto..|congruence].
Qed.

(* zero, and a negative number to a fraction *)
Lemma finite_tests f : finite f -> f_isnan f = false /\ f_isinf f = false.
Proof. destruct f; try contradiction; split; reflexivity. Qed.
Lemma pow_zero x y v : has_value x 0 -> has_value y v -> v < 0 -> is_ibm x = true \/ is_ibm y = true ->
  num_pow c_pow complex_pow x y = Err ZeroDivisionError.
Proof.
  intros Hx Hy Hv I. destruct (num_float_value x 0 Hx) as (a & Ea & Wa & Fa & Ua). destruct (num_float_value y v Hy) as (b & Eb & Wb & Fb & Ub).
  assert (P : float_pow c_pow complex_pow a b = Err ZeroDivisionError).
  { unfold float_pow. rewrite (f_is_zero_units b Wb Fb), Ub. replace (v =? 0) with false by lia.
    destruct (finite_tests a Fa) as [-> ->], (finite_tests b Fb) as [-> ->]. rewrite (f_is_zero_units a Wa Fa), Ua. cbn [Z.eqb].
    rewrite (lt_zero b Wb Fb), Ub. replace (v <? 0) with true by lia. reflexivity. }
  destruct x as [i|f|w], y as [j|h|z]; try (destruct I; discriminate); unfold num_pow, ibm_pow, ibm_rpow; cbn [num_float] in *;
    rewrite ?Ea, ?Eb; cbn [bind]; rewrite ?Ea, ?Eb; cbn [bind]; rewrite P; reflexivity.
Qed.

Lemma pow_fraction x y u v : has_value x u -> u < 0 -> has_value y v -> v mod unit <> 0 ->
  exists a b, float_wf a /\ finite a /\ units a = u /\ float_wf b /\ finite b /\ units b = v /\
    float_pow c_pow complex_pow a b = (do (re, im) <- complex_pow a b ;; Ok (PComplex re im)) /\
    num_float x = Ok a /\ num_float y = Ok b.
Proof.
  intros Hx Hu Hy Hv. destruct (num_float_value x u Hx) as (a & Ea & Wa & Fa & Ua). destruct (num_float_value y v Hy) as (b & Eb & Wb & Fb & Ub).
  exists a, b. do 6 (split; [assumption|]). split; [|split; assumption]. unfold float_pow.
  assert (v <> 0) by (intros ->; apply Hv; apply Z.mod_0_l; assert (P := unit_pos); lia).
  rewrite (f_is_zero_units b Wb Fb), Ub. replace (v =? 0) with false by lia.
  destruct (finite_tests a Fa) as [-> ->], (finite_tests b Fb) as [-> ->]. rewrite (f_is_zero_units a Wa Fa), Ua. replace (u =? 0) with false by lia.
  rewrite (lt_zero a Wa Fa), Ua, is_integer_units, Ub. replace (u <? 0) with true by lia.
  replace (v mod unit =? 0) with false by (symmetry; apply Z.eqb_neq; exact Hv). reflexivity.
Qed.

(* in all other cases *)
Lemma pow_other x y a b : word_ok x -> word_ok y -> ibm_units x <> 0 -> Z.abs (ibm_units x) <> unit -> ibm_units y <> 0 ->
  (0 < ibm_units x \/ ibm_units y mod unit = 0) -> float_wf a -> finite a -> units a = Z.abs (ibm_units x) ->
  float_wf b -> finite b -> units b = ibm_units y ->
  let s := if (ibm_units x <? 0) && Z.odd (Z.abs (ibm_units y) / unit) then -1 else 1 in
  match c_pow a b with
  | Err e => num_pow c_pow complex_pow (NIbm x) (NIbm y) = Err e
  | Ok r => float_wf r -> finite r ->
      (Z.abs (units r) <= ibm_max -> exists w, num_pow c_pow complex_pow (NIbm x) (NIbm y) = Ok (PNumber (NIbm w)) /\ truncation (s * units r) w) /\
      (ibm_max < Z.abs (units r) -> num_pow c_pow complex_pow (NIbm x) (NIbm y) = Err OverflowError)
  end.
Proof.
  intros Wx Wy Nx N1 Ny C Wa Fa Ua Wb Fb Ub s. destruct (decoded_wf x Wx) as [Dx Fx], (decoded_wf y Wy) as [Dy Fy].
  assert (Vx := decoded_units x Wx). assert (Vy := decoded_units y Wy).
  assert (Eb : decoded y = b) by (apply units_eq; try assumption; congruence).
  unfold num_pow, ibm_pow. cbn [num_float]. rewrite !ibm_float_spec by assumption. cbn [bind]. rewrite Eb.
  set (neg := ibm_units x <? 0) in *. set (odd := Z.odd (Z.abs (ibm_units y) / unit)) in *.
  assert (P : float_pow c_pow complex_pow (decoded x) b =
    do r <- c_pow a b ;; Ok (PNumber (NFloat (if neg && odd then SFopp r else r)))).
  { unfold float_pow. rewrite (f_is_zero_units b Wb Fb), Ub. replace (ibm_units y =? 0) with false by lia.
    destruct (finite_tests _ Fx) as [-> ->], (finite_tests b Fb) as [-> ->]. rewrite (f_is_zero_units _ Dx Fx), Vx. replace (ibm_units x =? 0) with false by lia.
    rewrite (lt_zero _ Dx Fx), Vx. fold neg. rewrite is_integer_units, Ub.
    replace (neg && negb (ibm_units y mod unit =? 0)) with false by (unfold neg; lia).
    assert (Ea : (if neg then SFopp (decoded x) else decoded x) = a).
    { apply units_eq; try assumption.
      - destruct neg; [apply opp_wf|]; exact Dx.
      - destruct neg; [apply opp_finite|]; exact Fx.
      - rewrite Ua. unfold neg. destruct (ibm_units x <? 0) eqn:S; [rewrite opp_units|]; lia.
      - unfold neg. destruct (ibm_units x <? 0); [rewrite opp_units|]; lia. }
    rewrite Ea, (eq_one a Wa Fa), Ua. replace (Z.abs (ibm_units x) =? unit) with false by lia.
    assert (O : neg && f_is_odd b = neg && odd).
    { destruct neg eqn:S; [|reflexivity]. cbn [andb]. destruct C as [C|C]; [unfold neg in S; lia|].
      unfold f_is_odd, odd. rewrite f_scaled_units, Ub. assert (U := unit_pos).
      assert (E : ibm_units y = (ibm_units y / unit) * unit) by (rewrite (Z_div_mod_eq_full (ibm_units y) unit) at 1; lia).
      assert (A : Z.abs (ibm_units y) = Z.abs (ibm_units y / unit) * unit) by (rewrite E at 1; rewrite Z.abs_mul, (Z.abs_eq unit) by lia; reflexivity).
      rewrite A, Z.div_mul by lia. replace (2 ^ 1075) with (2 * unit) by (unfold unit; change 1075 with (1 + 1074); rewrite (Z.pow_add_r 2 1 1074) by lia; reflexivity).
      fold unit. rewrite Z.mul_mod_distr_r by lia. rewrite Zmod_odd. destruct (Z.odd (Z.abs (ibm_units y / unit))); [rewrite Z.mul_1_l; apply Z.eqb_refl|].
      apply Z.eqb_neq. lia. }
    rewrite O. reflexivity. }
  rewrite P. destruct (c_pow a b) as [r|e]; cbn [bind]; [|reflexivity]. intros Wr Fr. cbn [is_ibm].
  assert (Q : float_wf (if neg && odd then SFopp r else r) /\ finite (if neg && odd then SFopp r else r) /\ units (if neg && odd then SFopp r else r) = s * units r).
  { unfold s. destruct (neg && odd); [|split; [exact Wr|split; [exact Fr|lia]]].
    split; [apply opp_wf; exact Wr|]. split; [apply opp_finite; exact Fr|]. rewrite opp_units. lia. }
  destruct Q as (Wq & Fq & Uq). destruct (wu_spec _ Wq Fq) as [A B]. rewrite Uq in A, B.
  assert (Z.abs (s * units r) = Z.abs (units r)) as Eabs by (unfold s; clear; destruct (neg && odd); [rewrite Z.abs_mul, Z.mul_1_l|rewrite Z.mul_1_l]; reflexivity). rewrite Eabs in A, B. split.
  - intros L. destruct (A L) as (v & E & T & _). exists v. rewrite E. split; [reflexivity|exact T].
  - intros L. rewrite (B L). reflexivity.
Qed.
End WithPow.

(* a pow that finds exact powers *)
Definition exact_pow (x y : float) : res float :=
  let n := units y / unit in
  Ok (binary_normalize 53 1024 (units x ^ n * unit / unit ^ n) (-1074) false).
Lemma exact_pow_ok : finds_exact_powers exact_pow.
Proof.
  intros x y n g Wx Fx Px Wy Fy Hn Ey Wg Fg P. unfold exact_pow. assert (U := unit_pos). assert (Un := unit_pow_pos n Hn). rewrite Ey, Z.div_mul by (clear - U; lia).
  unfold is_power in P. rewrite <- P, Z.div_mul by (clear - Un; lia). f_equal.
  assert (L := finite_bound g Wg Fg). destruct (normalize_all (units g) (-1074) false ltac:(lia)) as [A _].
  change (-1074 + 1074) with 0 in A. rewrite Z.pow_0_r, !Z.mul_1_r in A. specialize (A L).
  assert (E := rounds_exact_of (units g) 1 _ g ltac:(lia) A Wg Fg ltac:(lia)).
  apply units_eq; [apply A|apply A|exact Wg|exact Fg|exact E|]. rewrite E. intros Z0.
  rewrite Z0, Z.mul_0_l in P. assert (0 < units x ^ n) by (apply Z.pow_pos_nonneg; assumption).
  symmetry in P. apply Z.mul_eq_0 in P. clear - P U H. lia.
Qed.
