(* Proofs about IBM float arithmetic and conversion of integers. *)
From Coq Require Import ZArith List Bool Lia ZifyBool ZifyNat.
From Verif Require Import Py PyFloat IbmFloat PyFacts Spec_Ibm FloatFacts RoundFacts IbmFacts.
Import ListNotations.
Open Scope Z_scope.

Lemma ibm_min_le w : word_ok w -> ibm_units w <> 0 -> ibm_min <= Z.abs (ibm_units w).
Proof.
  intros Hw N. rewrite abs_ibm_units by auto. pose proof (M_range w Hw). pose proof (E_range w).
  rewrite ibm_units_zero in N by auto. unfold ibm_min.
  apply Z.le_trans with (1 * 2 ^ (4 * ibm_E w + 794)).
  - rewrite Z.mul_1_l. apply Z.pow_le_mono_r; lia.
  - apply Z.mul_le_mono_nonneg_r; [apply Z.pow_nonneg; lia|lia].
Qed.

Lemma zero_truncation v : Z.abs v < ibm_min -> truncation v IBM_ZERO.
Proof.
  intros H. assert (UZ : ibm_units IBM_ZERO = 0) by reflexivity. unfold truncation. rewrite UZ.
  split; [unfold word_ok; cbn; lia|]. split; [lia|]. split; [lia|]. split; [lia|].
  intros w' Hw' L. destruct (Z.eq_dec (ibm_units w') 0) as [->|N]; [lia|].
  pose proof (ibm_min_le w' Hw' N). lia.
Qed.

Lemma wu_spec r : float_wf r -> finite r ->
  (Z.abs (units r) <= ibm_max -> exists w, from_float_without_underflow r = Ok w /\ truncation (units r) w /\
     (Z.abs (units r) < ibm_min -> w = IBM_ZERO)) /\
  (ibm_max < Z.abs (units r) -> from_float_without_underflow r = Err OverflowError).
Proof.
  intros Wf F. unfold from_float_without_underflow. split.
  - intros H. destruct (ieee2ibm r) as [w|e] eqn:E.
    + exists w. split; auto. destruct (encode_ok r w Wf E) as (_ & _ & T & NZ & _). split; auto.
      intros S. destruct (Z.eq_dec (units r) 0) as [Z0|N].
      * rewrite ieee2ibm_zero in E by auto. congruence.
      * pose proof (ibm_min_le w (proj1 T) (NZ N)). destruct T as (_ & _ & _ & T & _). lia.
    + destruct (encode_errors r Wf) as (V & O & U & A). destruct (A e E) as [->|[->| ->]].
      * apply V in E. contradiction.
      * apply O in E. lia.
      * exists IBM_ZERO. split; auto. apply U in E. split; auto. apply zero_truncation. tauto.
  - intros H. rewrite ieee2ibm_over by auto. reflexivity.
Qed.

Lemma truncation_exact w v : word_ok w -> truncation (ibm_units w) v -> ibm_units v = ibm_units w.
Proof.
  intros Hw (Hv & P & N & L & B). specialize (B w Hw ltac:(lia)). lia.
Qed.

Lemma rounds_exact_of N D r g : 0 < D -> rounds_to N D r -> float_wf g -> finite g -> units g * D = N ->
  units r = units g.
Proof.
  intros HD (_ & _ & H) Wg Fg E. destruct (H g Wg Fg) as (A & _). rewrite E, Z.sub_diag in A.
  apply (Z.mul_cancel_r _ _ D); lia.
Qed.

Lemma ibm_max_lt : ibm_max < 2 ^ 1326.
Proof.
  unfold ibm_max. change (-24 + 4 * 63 + 1074) with 1302. change 1326 with (24 + 1302).
  rewrite Z.pow_add_r by lia. apply Z.mul_lt_mono_pos_r; lia.
Qed.

Lemma op_result_of N D r : rounds_to N D r -> op_result N D (from_float_without_underflow r).
Proof. intros R. exists r. split; auto. apply wu_spec; apply R. Qed.

Lemma op_result_exact N D res z : 0 < D -> op_result N D res -> word_ok z -> ibm_units z * D = N ->
  exists w, res = Ok w /\ word_ok w /\ ibm_units w = ibm_units z.
Proof.
  intros HD (r & R & A & _) Hz E. destruct (decoded_wf z Hz) as (Wz & Fz).
  assert (U : units r = ibm_units z).
  { rewrite <- decoded_units by auto. apply (rounds_exact_of N D); auto. now rewrite decoded_units. }
  rewrite U in A. destruct (A (ibm_max_bound z Hz)) as (w & Ew & T & _). exists w. split; auto.
  split; [apply T|]. now apply truncation_exact.
Qed.

Lemma add_result x y : word_ok x -> word_ok y -> op_result (ibm_units x + ibm_units y) 1 (ibm_add x y).
Proof.
  intros Hx Hy. unfold ibm_add, ibm_op. rewrite !ibm_float_spec by auto. cbn [bind].
  destruct (decoded_wf x Hx), (decoded_wf y Hy). apply op_result_of.
  rewrite <- (decoded_units x), <- (decoded_units y) by auto. apply f_add_rounds; auto.
  rewrite !decoded_units by auto. pose proof (ibm_max_bound x Hx). pose proof (ibm_max_bound y Hy). pose proof ibm_max_lt.
  assert (2 * 2 ^ 1326 < 2 ^ (1023 + 1074)).
  { change (2 * 2 ^ 1326) with (2 ^ 1 * 2 ^ 1326). rewrite <- Z.pow_add_r by lia. apply Z.pow_lt_mono_r; lia. }
  lia.
Qed.

Lemma sub_result x y : word_ok x -> word_ok y -> op_result (ibm_units x - ibm_units y) 1 (ibm_sub x y).
Proof.
  intros Hx Hy. unfold ibm_sub, ibm_op. rewrite !ibm_float_spec by auto. cbn [bind]. rewrite f_sub_add.
  destruct (decoded_wf x Hx), (decoded_wf y Hy). apply op_result_of.
  rewrite <- (decoded_units x), <- (decoded_units y) by auto.
  replace (units (decoded x) - units (decoded y)) with (units (decoded x) + units (SFopp (decoded y))) by (rewrite opp_units; lia).
  apply f_add_rounds; auto using opp_wf, opp_finite.
  rewrite opp_units, !decoded_units by auto. pose proof (ibm_max_bound x Hx). pose proof (ibm_max_bound y Hy). pose proof ibm_max_lt.
  assert (2 * 2 ^ 1326 < 2 ^ (1023 + 1074)).
  { change (2 * 2 ^ 1326) with (2 ^ 1 * 2 ^ 1326). rewrite <- Z.pow_add_r by lia. apply Z.pow_lt_mono_r; lia. }
  lia.
Qed.

Lemma mul_result x y : word_ok x -> word_ok y -> op_result (ibm_units x * ibm_units y) unit (ibm_mul x y).
Proof.
  intros Hx Hy. unfold ibm_mul, ibm_op. rewrite !ibm_float_spec by auto. cbn [bind].
  destruct (decoded_wf x Hx), (decoded_wf y Hy). apply op_result_of.
  rewrite <- (decoded_units x), <- (decoded_units y) by auto. apply f_mul_rounds; auto.
  rewrite !decoded_units by auto. pose proof (ibm_max_bound x Hx). pose proof (ibm_max_bound y Hy). pose proof ibm_max_lt.
  rewrite Z.abs_mul. apply Z.le_lt_trans with (2 ^ 1326 * 2 ^ 1326).
  - apply Z.mul_le_mono_nonneg; lia.
  - rewrite <- Z.pow_add_r by lia. apply Z.pow_lt_mono_r; lia.
Qed.

Lemma div_result x y : word_ok x -> word_ok y -> ibm_units y <> 0 ->
  op_result (ibm_units x * unit * Z.sgn (ibm_units y)) (Z.abs (ibm_units y)) (ibm_truediv x y).
Proof.
  intros Hx Hy Ny. unfold ibm_truediv. rewrite !ibm_float_spec by auto. cbn [bind].
  destruct (decoded_wf x Hx), (decoded_wf y Hy).
  destruct (f_div_rounds (decoded x) (decoded y)) as (r & -> & R); auto.
  - now rewrite decoded_units.
  - rewrite !decoded_units by auto. pose proof (ibm_max_bound x Hx). pose proof (ibm_min_le y Hy Ny). pose proof ibm_max_lt.
    apply Z.lt_le_trans with (ibm_min * 2 ^ 1023).
    + eapply Z.le_lt_trans; [eassumption|]. eapply Z.lt_trans; [eassumption|].
      unfold ibm_min. rewrite <- Z.pow_add_r by lia. apply Z.pow_lt_mono_r; lia.
    + apply Z.mul_le_mono_nonneg_r; [apply Z.pow_nonneg; lia|lia].
  - cbn [bind]. rewrite !decoded_units in R by auto. apply op_result_of; auto.
Qed.

Lemma div_zero x y : word_ok x -> word_ok y -> ibm_units y = 0 -> ibm_truediv x y = Err ZeroDivisionError.
Proof.
  intros Hx Hy Z0. unfold ibm_truediv. rewrite !ibm_float_spec by auto. cbn [bind].
  apply ibm_units_zero in Z0; auto. unfold decoded at 2. rewrite Z0. reflexivity.
Qed.

Lemma op_comm x y : word_ok x -> word_ok y -> ibm_add x y = ibm_add y x /\ ibm_mul x y = ibm_mul y x.
Proof.
  intros Hx Hy. unfold ibm_add, ibm_mul, ibm_op. rewrite !ibm_float_spec by auto. cbn [bind].
  now rewrite f_add_comm, f_mul_comm.
Qed.

(* the word of a small integer *)
Lemma int_word n : Z.abs n < 2 ^ 24 -> exists w, word_ok w /\ ibm_units w = n * unit.
Proof.
  intros H. exists (mkword (n <? 0) 70 (Z.abs n)). split; [apply mkword_ok; lia|].
  rewrite mkword_units by lia. unfold unit. change (4 * 70 + 794) with 1074.
  destruct (n <? 0) eqn:S; [replace (Z.abs n) with (- n) by lia|replace (Z.abs n) with n by lia]; ring.
Qed.

(* --- integers --- *)

Lemma unit_double (b : bool) : exists g, float_wf g /\ finite g /\ units g = (if b then -1 else 1) * unit.
Proof.
  exists (S754_finite b p52 (-52)). split; [reflexivity|]. split; [exact I|]. destruct b; vm_compute; reflexivity.
Qed.

Lemma MAX_INT_units : MAX_IBM_INT * unit = ibm_max.
Proof.
  unfold MAX_IBM_INT, unit, ibm_max. rewrite <- Z.mul_assoc, <- Z.pow_add_r by lia. reflexivity.
Qed.

Lemma ieee2ibm_int_spec n :
  (Z.abs n <= MAX_IBM_INT -> exists r w, rounds_to (n * unit) 1 r /\ ieee2ibm_int n = Ok w /\ truncation (units r) w) /\
  (MAX_IBM_INT < Z.abs n -> ieee2ibm_int n = Err OverflowError).
Proof.
  pose proof unit_pos as PU. split.
  - intros H. unfold ieee2ibm_int. destruct (n =? 0) eqn:Z0.
    { assert (n = 0) as -> by lia. exists (S754_zero false), IBM_ZERO. split.
      - apply rounds_exact; [lia|reflexivity|exact I|reflexivity].
      - split; auto. apply zero_truncation. cbn [units Z.abs]. unfold ibm_min. lia. }
    assert (R : rounds_to (n * unit) 1 (binary_normalize 53 1024 n 0 false)).
    { pose proof (binary_normalize_nearest n 0 ltac:(lia)) as K. apply K.
      change (0 + 1074) with 1074. fold unit. apply Z.le_lt_trans with (MAX_IBM_INT * unit).
      - apply Z.mul_le_mono_nonneg_r; lia.
      - rewrite MAX_INT_units. eapply Z.lt_trans; [apply ibm_max_lt|]. apply Z.pow_lt_mono_r; lia. }
    assert (EF : f_of_int n = Ok (binary_normalize 53 1024 n 0 false)).
    { unfold f_of_int. destruct R as (_ & F & _). destruct (binary_normalize 53 1024 n 0 false); cbn [finite] in F; auto; contradiction. }
    rewrite EF. cbn [bind]. set (r := binary_normalize 53 1024 n 0 false) in *. clearbody r.
    replace (n <? - MAX_IBM_INT) with false by lia. replace (MAX_IBM_INT <? n) with false by lia.
    assert (Wr : float_wf r) by apply R. assert (Fr : finite r) by apply R.
    (* sign and size survive rounding *)
    assert (Sg : (units r <? 0) = (n <? 0) /\ units r <> 0).
    { destruct (unit_double (n <? 0)) as (g & Wg & Fg & Ug). destruct R as (_ & _ & R).
      destruct (R g Wg Fg) as (A & _). rewrite Ug in A. set (u := unit) in *. clearbody u.
      assert (NU : n < 0 /\ n * u <= - u \/ 0 < n /\ u <= n * u) by nia.
      destruct (n <? 0) eqn:S; [assert (units r < 0) by lia|assert (0 < units r) by lia]; lia. }
    assert (Bd : Z.abs (units r) <= ibm_max).
    { destruct R as (_ & _ & R). destruct MAX_wf as (W1 & W2 & F1 & F2).
      pose proof MAX_units as U1. pose proof MIN_units as U2.
      pose proof (proj1 (R _ W1 F1)) as A1. pose proof (proj1 (R _ W2 F2)) as A2. rewrite U1 in A1. rewrite U2 in A2.
      assert (NB : Z.abs (n * unit) <= ibm_max).
      { rewrite <- MAX_INT_units, Z.abs_mul, (Z.abs_eq unit) by lia. apply Z.mul_le_mono_nonneg_r; lia. }
      rewrite Z.mul_1_r in *. lia. }
    exists r.
    assert (EQ : ieee2ibm r = ieee2ibm_core r (n <? 0)).
    { destruct MAX_wf as (? & ? & ? & ?). destruct (zero_wf false). destruct Sg as (Sg & N0).
      unfold ieee2ibm. rewrite f_eq_units, !f_lt_units by auto. change (units (S754_zero false)) with 0.
      rewrite MAX_units, MIN_units, Sg. replace (units r =? 0) with false by lia.
      replace (units r <? - ibm_max) with false by lia. replace (ibm_max <? units r) with false by lia.
      destruct r; cbn [finite f_isnan f_isinf] in *; auto; contradiction. }
    rewrite <- EQ. destruct (ieee2ibm r) as [w|e] eqn:Er.
    + exists w. split; auto. split; auto. apply (encode_ok r w Wr Er).
    + exfalso. destruct (encode_errors r Wr) as (V & O & U & A).
      destruct (A e Er) as [->|[->| ->]].
      * apply V in Er. contradiction.
      * apply O in Er. lia.
      * apply U in Er. destruct Er as (_ & Er). destruct Sg as (Sg & N0).
        destruct (unit_double (n <? 0)) as (g & Wg & Fg & Ug). destruct R as (_ & _ & R).
        destruct (R g Wg Fg) as (A' & _). rewrite Ug in A'.
        assert (ibm_min < unit) by (unfold ibm_min, unit; apply Z.pow_lt_mono_r; lia).
        set (u := unit) in *. clearbody u. set (i := ibm_min) in *. clearbody i.
        assert (NU : n < 0 /\ n * u <= - u \/ 0 < n /\ u <= n * u) by nia.
        destruct (n <? 0) eqn:S; lia.
  - intros H. unfold ieee2ibm_int. assert (0 <= MAX_IBM_INT) by (unfold MAX_IBM_INT; lia).
    replace (n =? 0) with false by lia.
    assert (K : forall e, f_of_int n = Err e -> e = OverflowError).
    { unfold f_of_int. intros e. destruct (binary_normalize 53 1024 n 0 false); congruence. }
    destruct (f_of_int n) as [f|e] eqn:E; cbn [bind]; [|now rewrite (K e)].
    destruct (n <? - MAX_IBM_INT) eqn:A; [reflexivity|]. now replace (MAX_IBM_INT <? n) with true by lia.
Qed.

Lemma ieee2ibm_int_small n : Z.abs n < 2 ^ 24 -> exists w, ieee2ibm_int n = Ok w /\ word_ok w /\ ibm_units w = n * unit.
Proof.
  intros H. destruct (int_word n H) as (z & Hz & Uz).
  destruct (ieee2ibm_int_spec n) as (A & _).
  destruct A as (r & w & R & E & T).
  { eapply Z.lt_le_incl, Z.lt_le_trans; [exact H|]. unfold MAX_IBM_INT. lia. }
  exists w. split; auto. split; [apply T|]. destruct (decoded_wf z Hz) as (Wz & Fz).
  assert (U : units r = ibm_units z).
  { rewrite <- decoded_units by auto. apply (rounds_exact_of (n * unit) 1); auto; [lia|].
    rewrite decoded_units by auto. lia. }
  rewrite U in T. rewrite <- Uz. now apply truncation_exact.
Qed.

(* --- statements in the form used by the properties --- *)

Lemma decode_bytes a b c d rest : word_ok (W a b c d) ->
  exists f, ibm2ieee (a :: b :: c :: d :: rest) = Ok f /\ ibm_float (W a b c d) = Ok f /\
    float_wf f /\ finite f /\ units f = ibm_units (W a b c d) /\
    (ibm_M (W a b c d) = 0 -> f = S754_zero false).
Proof.
  intros H. exists (decoded (W a b c d)). unfold ibm2ieee, four_bytes, ibm_float. cbn [bind].
  rewrite ibm2ieee_decoded by auto. split; auto. split; auto.
  destruct (decoded_wf _ H). split; auto. split; auto. split; [now apply decoded_units|].
  intros Z0. unfold decoded. now rewrite Z0.
Qed.

Lemma encode_zero : ieee2ibm (S754_zero false) = Ok IBM_ZERO /\ ieee2ibm (S754_zero true) = Ok IBM_ZERO.
Proof. split; reflexivity. Qed.

Lemma encode_word_ok f w : float_wf f -> ieee2ibm f = Ok w -> word_ok w.
Proof. intros Wf E. destruct (encode_ok f w Wf E) as (_ & _ & T & _). apply T. Qed.

Lemma reencode_bytes w : word_ok w -> exists f w',
  ibm2ieee (ibm_bytes w) = Ok f /\ ieee2ibm f = Ok w' /\ word_ok w' /\
  ibm2ieee (ibm_bytes w') = Ok f /\
  (canonical w -> w' = w) /\ (ibm_units w = 0 -> w' = IBM_ZERO) /\
  (~ tiny w \/ ibm_E w = 0 -> try_normalize w = Ok w').
Proof.
  intros Hw. destruct (reencode w Hw) as (w' & E & Hw' & N & U).
  exists (decoded w), w'. destruct w as [a b c d], w' as [a' b' c' d'].
  unfold ibm2ieee, ibm_bytes. cbn [four_bytes bind w0 w1 w2 w3].
  rewrite !ibm2ieee_decoded by auto. split; auto. split; auto. split; auto.
  split; [f_equal; now apply decoded_eq|]. split; [|split].
  - intros C. pose proof (reencode_nf _ Hw (canonical_nf _ C)). congruence.
  - intros Z0. apply nf_unique; auto; [unfold word_ok; cbn; lia|now left|].
    rewrite U, Z0. reflexivity.
  - intros C. now rewrite reencode_try.
Qed.

Lemma encode_monotone f g v w : float_wf f -> float_wf g -> ieee2ibm f = Ok v -> ieee2ibm g = Ok w ->
  units f <= units g -> ibm_units v <= ibm_units w.
Proof.
  intros Wf Wg Ef Eg L. eapply truncation_mono; [| |exact L]; [apply (encode_ok f v Wf Ef)|apply (encode_ok g w Wg Eg)].
Qed.

Lemma normalize_cases w : word_ok w ->
  (tiny w -> normalize w = Err FloatingPointError) /\
  (~ tiny w -> exists w', normalize w = Ok w' /\ word_ok w' /\ canonical w' /\ ibm_units w' = ibm_units w).
Proof.
  intros Hw. destruct (normalize_spec w Hw) as [(E & T)|(w' & E & T & Hw' & C & U & _)]; split; intros T'; auto.
  - contradiction.
  - contradiction.
  - exists w'. auto.
Qed.

Lemma frexp_value w : word_ok w -> exists m e, ibm_frexp w = Ok (m, e) /\ float_wf m /\ finite m /\
  Z.abs (units m) < unit /\ -256 <= e < 256 /\ units m * 2 ^ (e + 256) = ibm_units w * 2 ^ 256 /\
  exists w', ibm_ldexp m e = Ok w' /\ word_ok w' /\ ibm_units w' = ibm_units w.
Proof.
  intros Hw. destruct (frexp_exact w Hw) as (m & e & E & Wm & Fm & Ee & Um & Am & L).
  destruct (reencode w Hw) as (w' & R & Hw' & _ & U). pose proof (E_range w) as HE.
  exists m, e. split; auto. split; auto. split; auto. split; auto. split; [lia|]. split.
  - rewrite Um, ibm_units_eq, Ee. rewrite <- !Z.mul_assoc. do 2 f_equal.
    rewrite <- !Z.pow_add_r by lia. f_equal. lia.
  - exists w'. rewrite L. auto.
Qed.

Lemma neg_abs_zero w : word_ok w ->
  word_ok (ibm_neg w) /\ ibm_units (ibm_neg w) = - ibm_units w /\ (ibm_units w <> 0 -> ibm_neg (ibm_neg w) = w) /\
  word_ok (ibm_abs w) /\ ibm_units (ibm_abs w) = Z.abs (ibm_units w) /\
  (ibm_bool w = true <-> ibm_units w <> 0) /\
  (canonical w -> zero_subnormal w = w) /\ (~ canonical w -> zero_subnormal w = IBM_ZERO).
Proof.
  intros Hw. destruct (neg_spec w Hw) as (A & B & C). destruct (abs_spec w Hw) as (D & E & _).
  destruct (zero_subnormal_spec w Hw). repeat (split; [now auto|]).
  split. { rewrite ibm_units_zero by auto. auto. }
  repeat (split; [now auto|]). split; [now apply ibm_bool_spec|]. auto.
Qed.

Lemma sum_of_integers x y a b : word_ok x -> word_ok y -> ibm_units x = a * unit -> ibm_units y = b * unit ->
  Z.abs (a + b) < 2 ^ 24 -> exists w, ibm_add x y = Ok w /\ word_ok w /\ ibm_units w = (a + b) * unit.
Proof.
  intros Hx Hy Ux Uy H. destruct (int_word (a + b) H) as (z & Hz & Uz).
  destruct (op_result_exact _ _ _ z Z.lt_0_1 (add_result x y Hx Hy) Hz) as (w & E & Hw & U).
  - rewrite Uz, Ux, Uy. ring.
  - exists w. rewrite <- Uz. auto.
Qed.

Lemma exact_results x y z : word_ok x -> word_ok y -> word_ok z ->
  (ibm_units z = ibm_units x + ibm_units y -> exists w, ibm_add x y = Ok w /\ word_ok w /\ ibm_units w = ibm_units z) /\
  (ibm_units z = ibm_units x - ibm_units y -> exists w, ibm_sub x y = Ok w /\ word_ok w /\ ibm_units w = ibm_units z) /\
  (ibm_units z * unit = ibm_units x * ibm_units y -> exists w, ibm_mul x y = Ok w /\ word_ok w /\ ibm_units w = ibm_units z) /\
  (ibm_units y <> 0 -> ibm_units z * ibm_units y = ibm_units x * unit ->
     exists w, ibm_truediv x y = Ok w /\ word_ok w /\ ibm_units w = ibm_units z).
Proof.
  intros Hx Hy Hz. pose proof unit_pos. split; [|split; [|split]].
  - intros E. apply (op_result_exact _ _ _ z Z.lt_0_1 (add_result x y Hx Hy) Hz). lia.
  - intros E. apply (op_result_exact _ _ _ z Z.lt_0_1 (sub_result x y Hx Hy) Hz). lia.
  - intros E. apply (op_result_exact _ _ _ z unit_pos (mul_result x y Hx Hy) Hz). lia.
  - intros N E. assert (PA : 0 < Z.abs (ibm_units y)) by lia.
    apply (op_result_exact _ _ _ z PA (div_result x y Hx Hy N) Hz).
    rewrite <- E.
    destruct (Z.lt_trichotomy (ibm_units y) 0) as [L|[L|L]]; [|contradiction|].
    + rewrite Z.abs_neq, Z.sgn_neg by lia. ring.
    + rewrite Z.abs_eq, Z.sgn_pos by lia. ring.
Qed.

(* witnesses *)
Lemma eq_false_positive : exists x y, word_ok x /\ word_ok y /\ ibm_eq x y = Ok true /\ ibm_units x <> ibm_units y.
Proof.
  exists (W 2 0 0 1), (W 0 0 1 1). split; [unfold word_ok; cbn; lia|]. split; [unfold word_ok; cbn; lia|].
  split; [reflexivity|]. rewrite !ibm_units_eq. cbn [ibm_sign ibm_M ibm_E w0 w1 w2 w3].
  intros E. vm_compute in E. discriminate.
Qed.
Lemma eq_false_negative : exists x y, word_ok x /\ word_ok y /\ ibm_eq x y = Ok false /\ ibm_units x = ibm_units y.
Proof.
  exists (W 0 0 0 0), (W 128 0 0 0). split; [unfold word_ok; cbn; lia|]. split; [unfold word_ok; cbn; lia|].
  split; reflexivity.
Qed.

(* 1.0, 0.0 and -1.0 *)
Lemma one_units : ibm_units (W 65 16 0 0) = 1 * unit /\ ibm_units (W 193 16 0 0) = -1 * unit.
Proof. split; vm_compute; reflexivity. Qed.
Lemma ceil_wrong : exists w n, word_ok w /\ ibm_units w = n * unit /\ ibm_ceil w = Ok (n + 1).
Proof.
  exists (W 65 16 0 0), 1. split; [unfold word_ok; cbn; lia|]. split; [apply one_units|]. vm_compute; reflexivity.
Qed.
Lemma floor_wrong : exists w n, word_ok w /\ ibm_units w = n * unit /\ ibm_floor w = Ok (n - 1).
Proof.
  exists (W 193 16 0 0), (-1). split; [unfold word_ok; cbn; lia|]. split; [apply one_units|]. vm_compute; reflexivity.
Qed.
