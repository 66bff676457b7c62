(* Proofs about an IBMFloat together with the other Python numbers: the
   statements of the properties. *)
From Coq Require Import ZArith List Bool Lia ZifyBool ZifyNat.
From Verif Require Import Py PyFloat IbmFloat IbmNumber PyFacts Spec_Ibm Spec_IbmNumber FloatFacts RoundFacts IbmFacts IbmArith IbmNumberFacts.
Import ListNotations.
Open Scope Z_scope.

(* sign, mantissa and exponent *)
Lemma word_parts w : word_ok w -> exists A a, Z.abs A < 2 ^ 24 /\ 794 <= a <= 1302 /\
  (exists E, a = 4 * E + 794 /\ 0 <= E < 128) /\ ibm_units w = A * 2 ^ a.
Proof.
  intros H. pose proof (M_range w H). pose proof (E_range w).
  exists (ibm_sign w * ibm_M w), (4 * ibm_E w + 794). split; [unfold ibm_sign; destruct (w0 w <? 128); lia|].
  split; [lia|]. split; [exists (ibm_E w); auto|]. rewrite ibm_units_eq. ring.
Qed.

Lemma ibm_small w : word_ok w -> Z.abs (ibm_units w) < 2 ^ 1326.
Proof. intros H. pose proof (ibm_max_bound w H). pose proof ibm_max_lt. lia. Qed.

Lemma pow_1326 : 2 ^ 1326 < 2 ^ 2097. Proof. apply Z.pow_lt_mono_r; lia. Qed.

Lemma word_of A E : Z.abs A < 2 ^ 24 -> 0 <= E < 128 -> exists w, word_ok w /\ ibm_units w = A * 2 ^ (4 * E + 794).
Proof.
  intros HA HE. exists (mkword (A <? 0) E (Z.abs A)). split; [apply mkword_ok; lia|].
  rewrite mkword_units by lia. destruct (A <? 0) eqn:S; [replace (Z.abs A) with (- A) by lia|replace (Z.abs A) with A by lia]; ring.
Qed.

(* --- floor division --- *)

Lemma floordiv_small x y : word_ok x -> word_ok y -> ibm_units y <> 0 ->
  Z.abs (ibm_units x) < 2 ^ 28 * Z.abs (ibm_units y) ->
  num_floordiv (NIbm x) (NIbm y) = Ok (NInt (ibm_units x / ibm_units y)).
Proof.
  intros Hx Hy Ny Q. unfold num_floordiv, operator, ibm_floordiv, num_float. rewrite !ibm_float_spec by auto. cbn [bind].
  destruct (decoded_wf x Hx) as (Wx & Fx), (decoded_wf y Hy) as (Wy & Fy).
  destruct (f_div_rounds (decoded x) (decoded y)) as (r & -> & R); auto.
  - now rewrite decoded_units.
  - rewrite !decoded_units by auto. eapply Z.lt_le_trans; [exact Q|]. rewrite Z.mul_comm.
    apply Z.mul_le_mono_nonneg_l; [lia|]. apply Z.pow_le_mono_r; lia.
  - cbn [bind]. rewrite !decoded_units in R by auto. rewrite f_floor_units by apply R. cbn [bind]. do 2 f_equal.
    destruct (word_parts x Hx) as (A & a & HA & Ha & _ & Ex). destruct (word_parts y Hy) as (B & b & HB & Hb & _ & Ey).
    rewrite Ex, Ey in *. clear Ex Ey. assert (Pb : 0 < 2 ^ b) by lia.
    assert (NB : B <> 0) by (intros ->; now apply Ny).
    assert (Sy : Z.sgn (B * 2 ^ b) = Z.sgn B) by nia.
    assert (Ay : Z.abs (B * 2 ^ b) = Z.abs B * 2 ^ b) by nia.
    rewrite Sy, Ay in *.
    assert (HS : Z.abs (A * Z.sgn B) < 2 ^ 24) by (rewrite Z.abs_mul; nia).
    rewrite (floor_of_rounded (A * Z.sgn B) a (Z.abs B) b r); try lia.
    + destruct (Z.lt_total B 0) as [S|[S|S]]; [|lia|].
      * replace (Z.sgn B) with (-1) by lia. replace (Z.abs B) with (- B) by lia.
        replace (A * -1 * 2 ^ a) with (- (A * 2 ^ a)) by ring. replace (- B * 2 ^ b) with (- (B * 2 ^ b)) by ring.
        apply Z.div_opp_opp. nia.
      * replace (Z.sgn B) with 1 by lia. replace (Z.abs B) with B by lia. now rewrite Z.mul_1_r.
    + replace (A * Z.sgn B * 2 ^ a * unit) with (A * 2 ^ a * unit * Z.sgn B) by ring. exact R.
Qed.

Lemma decoded_zero y : word_ok y -> ibm_units y = 0 -> decoded y = S754_zero false.
Proof. intros Hy Z0. apply ibm_units_zero in Z0; auto. unfold decoded. rewrite Z0. reflexivity. Qed.

Lemma division_by_zero x y n : word_ok x -> word_ok y -> ibm_units y = 0 ->
  (n = NIbm x \/ (exists f, n = NFloat f) \/ exists i, n = NInt i /\ Z.abs i <= 2 ^ 53) ->
  num_truediv n (NIbm y) = Err ZeroDivisionError /\
  num_floordiv n (NIbm y) = Err ZeroDivisionError /\ num_mod n (NIbm y) = Err ZeroDivisionError.
Proof.
  intros Hx Hy Z0 [->|[(f & ->)|(i & -> & Hi)]];
    unfold num_truediv, num_floordiv, num_mod, operator, ibm_truediv_num, ibm_floordiv, ibm_mod_num,
      ibm_rtruediv, ibm_rfloordiv, ibm_rmod, num_float; rewrite !ibm_float_spec by auto; rewrite (decoded_zero y) by auto.
  - repeat split.
  - repeat split.
  - destruct (Z.eq_dec i 0) as [->|N]; [repeat split|].
    assert (exists g, f_of_int i = Ok g) as (g & ->).
    { destruct (Z.eq_dec (Z.abs i) (2 ^ 53)) as [E|E].
      - assert (i = 2 ^ 53 \/ i = - 2 ^ 53) as [-> | ->] by lia; eexists; vm_compute; reflexivity.
      - rewrite f_of_int_small by lia. eauto. }
    repeat split.
Qed.

(* --- remainder --- *)

Lemma mod_result x y : word_ok x -> word_ok y -> ibm_units y <> 0 ->
  exists w, num_mod (NIbm x) (NIbm y) = Ok (NIbm w) /\ op_result (ibm_units x mod ibm_units y) 1 (Ok w).
Proof.
  intros Hx Hy Ny. unfold num_mod, operator, ibm_mod_num, num_float. rewrite !ibm_float_spec by auto. cbn [bind].
  destruct (decoded_wf x Hx) as (Wx & Fx), (decoded_wf y Hy) as (Wy & Fy).
  pose proof (ibm_small x Hx). pose proof (ibm_small y Hy). pose proof pow_1326.
  destruct (f_mod_rounds (decoded x) (decoded y)) as (r & -> & R & _); auto; rewrite ?decoded_units by auto; try lia.
  cbn [bind is_ibm ibm_if]. rewrite !decoded_units in R by auto.
  assert (B : Z.abs (units r) <= ibm_max).
  { destruct R as (_ & _ & R). destruct MAX_wf as (W1 & W2 & F1 & F2).
    pose proof (proj1 (R _ W1 F1)) as A1. pose proof (proj1 (R _ W2 F2)) as A2.
    rewrite MAX_units in A1. rewrite MIN_units in A2. pose proof (ibm_max_bound y Hy).
    pose proof (Z.mod_pos_bound (ibm_units x) (ibm_units y)). pose proof (Z.mod_neg_bound (ibm_units x) (ibm_units y)).
    rewrite Z.mul_1_r in *. lia. }
  pose proof (op_result_of _ _ _ R) as O.
  destruct (wu_spec r) as (K & _); try apply R. destruct (K B) as (w & E & _). rewrite E in *. cbn [bind].
  exists w. auto.
Qed.

Lemma mod_exact x y : word_ok x -> word_ok y -> ibm_units y <> 0 -> 0 <= ibm_units x * ibm_units y ->
  exists w, num_mod (NIbm x) (NIbm y) = Ok (NIbm w) /\ word_ok w /\ ibm_units w = ibm_units x mod ibm_units y.
Proof.
  intros Hx Hy Ny S. destruct (mod_result x y Hx Hy Ny) as (w & E & O). exists w. split; auto.
  destruct (word_parts x Hx) as (A & a & HA & _ & (e & -> & He) & Ex).
  destruct (word_parts y Hy) as (B & b & HB & _ & (f & -> & Hf) & Ey).
  assert (NB : B <> 0) by (intros ->; now rewrite Ey in Ny).
  destruct (rem_small (2 ^ 24) A (4 * e + 794) B (4 * f + 794)) as (R & k & HR & Hk & ER); try lia.
  rewrite <- Ex, <- Ey in ER.
  assert (EM : ibm_units x mod ibm_units y = Z.rem (ibm_units x) (ibm_units y)).
  { apply mod_of_rem; auto. pose proof (Z.rem_bound_abs (ibm_units x) (ibm_units y) Ny).
    destruct (Z.lt_total (ibm_units x) 0) as [X|[X|X]].
    - pose proof (Z.rem_nonpos (ibm_units x) (ibm_units y) Ny ltac:(lia)). nia.
    - rewrite X, Z.rem_0_l by auto. auto.
    - pose proof (Z.rem_nonneg (ibm_units x) (ibm_units y) Ny ltac:(lia)). nia. }
  assert (exists z, word_ok z /\ ibm_units z = Z.rem (ibm_units x) (ibm_units y)) as (z & Hz & Uz).
  { rewrite ER. destruct Hk as [-> | ->]; apply word_of; auto. }
  destruct (op_result_exact _ 1 (Ok w) z ltac:(lia) O Hz) as (w' & E' & Hw' & U'); [lia|].
  assert (w' = w) as -> by congruence. split; auto. now rewrite U', Uz, EM.
Qed.

Lemma mod_float x g : word_ok x -> float_wf g -> finite g -> units g <> 0 -> Z.abs (units g) < 2 ^ 2097 ->
  exists r, num_mod (NIbm x) (NFloat g) = Ok (NFloat r) /\ rounds_to (ibm_units x mod units g) 1 r.
Proof.
  intros Hx Wg Fg Ng Bg. unfold num_mod, operator, ibm_mod_num, num_float. rewrite ibm_float_spec by auto. cbn [bind].
  destruct (decoded_wf x Hx) as (Wx & Fx). pose proof (ibm_small x Hx). pose proof pow_1326.
  destruct (f_mod_rounds (decoded x) g) as (r & -> & R & _); auto; rewrite ?decoded_units by auto; try lia.
  rewrite decoded_units in R by auto. exists r. auto.
Qed.

Lemma float_mod g y : word_ok y -> float_wf g -> finite g -> ibm_units y <> 0 -> Z.abs (units g) < 2 ^ 2097 ->
  exists r, num_mod (NFloat g) (NIbm y) = Ok (NFloat r) /\ rounds_to (units g mod ibm_units y) 1 r.
Proof.
  intros Hy Wg Fg Ny Bg. unfold num_mod, operator, ibm_rmod, num_float. rewrite ibm_float_spec by auto. cbn [bind].
  destruct (decoded_wf y Hy) as (Wy & Fy). pose proof (ibm_small y Hy). pose proof pow_1326.
  destruct (f_mod_rounds g (decoded y)) as (r & -> & R & _); auto; rewrite ?decoded_units by auto; try lia.
  rewrite decoded_units in R by auto. exists r. auto.
Qed.

Lemma mod_infinity x s : word_ok x ->
  (ibm_units x = 0 -> num_mod (NIbm x) (NFloat (S754_infinity s)) = Ok (NFloat (S754_zero s))) /\
  (ibm_units x <> 0 -> (ibm_units x < 0 <-> s = true) ->
     exists r, num_mod (NIbm x) (NFloat (S754_infinity s)) = Ok (NFloat r) /\ finite r /\ units r = ibm_units x) /\
  (ibm_units x <> 0 -> ~ (ibm_units x < 0 <-> s = true) ->
     num_mod (NIbm x) (NFloat (S754_infinity s)) = Ok (NFloat (S754_infinity s))).
Proof.
  intros Hx. unfold num_mod, operator, ibm_mod_num, num_float. rewrite ibm_float_spec by auto. cbn [bind].
  destruct (decoded_wf x Hx) as (Wx & Fx). pose proof (decoded_units x Hx) as U. rewrite <- U.
  destruct (decoded x) as [z|z| |z m e]; cbn [finite] in Fx; try contradiction.
  - split; [|split]; intros; try (exfalso; now apply H). destruct s; reflexivity.
  - assert (Z0 : units (S754_finite z m e) <> 0 /\ (units (S754_finite z m e) < 0 <-> z = true)).
    { pose proof (proj1 (bounded_spec _ _) Wx) as B. destruct (units_sign z m e ltac:(lia)) as (-> & P).
      destruct z; intuition (try discriminate; lia). }
    destruct Z0 as (Z0 & Z1).
    split; [|split]; [intros; contradiction| |]; intros _ H.
    + assert (z = s) as -> by (destruct z, s; intuition congruence).
      exists (S754_finite s m e). split; [destruct s; reflexivity|]. split; [exact Fx|reflexivity].
    + assert (z = negb s) as -> by (destruct z, s; intuition congruence). destruct s; reflexivity.
Qed.

(* --- round --- *)

Lemma half_even m d : 0 < d -> let q := m / d in let r := m mod d in
  let n := if 2 * r <? d then q else if d <? 2 * r then q + 1 else if Z.even q then q else q + 1 in
  2 * Z.abs (n * d - m) <= d /\ (2 * Z.abs (n * d - m) = d -> Z.even n = true).
Proof.
  intros Hd q r n. pose proof (Z.div_mod m d ltac:(lia)) as E. pose proof (Z.mod_pos_bound m d Hd) as B.
  fold q r in E, B. clearbody q r. unfold n. clear n.
  destruct (2 * r <? d) eqn:A; [|destruct (d <? 2 * r) eqn:C; [|destruct (Z.even q) eqn:F]].
  - replace (q * d - m) with (- r) by lia. lia.
  - replace ((q + 1) * d - m) with (d - r) by lia. lia.
  - replace (q * d - m) with (- r) by lia. split; [lia|auto].
  - replace ((q + 1) * d - m) with (d - r) by lia. split; [lia|]. intros _. rewrite Z.even_add, F. reflexivity.
Qed.

Lemma nearest_of v n d : 0 < d -> 2 * Z.abs (n * d - v) <= d -> (2 * Z.abs (n * d - v) = d -> Z.even n = true) ->
  forall k, Z.abs (n * d - v) <= Z.abs (k * d - v) /\ (Z.abs (n * d - v) = Z.abs (k * d - v) -> k <> n -> Z.even n = true).
Proof.
  intros Hd A B k. destruct (nearest_multiple n k d v Hd A) as (C & D). split; auto.
Qed.

Lemma f_round_nearest f : float_wf f -> finite f -> exists n, f_round f = Ok n /\ nearest_integer (units f) n.
Proof.
  intros Wf F. pose proof unit_pos as PU. destruct f as [s|s| |s m e]; cbn [finite] in F; try contradiction.
  { exists 0. split; auto. intros k. cbn [units]. split; [lia|]. intros. reflexivity. }
  unfold float_wf in Wf. cbn [valid_binary] in Wf. apply bounded_spec in Wf. destruct Wf as (A & _ & _).
  assert (K : exists M, 2 * Z.abs (M * unit - Z.pos m * 2 ^ (e + 1074)) <= unit /\
    (2 * Z.abs (M * unit - Z.pos m * 2 ^ (e + 1074)) = unit -> Z.even M = true) /\
    f_round (S754_finite s m e) = Ok (if s then - M else M)).
  { unfold f_round. destruct (0 <=? e) eqn:E.
    - exists (Z.pos m * 2 ^ e). replace (Z.pos m * 2 ^ e * unit - Z.pos m * 2 ^ (e + 1074)) with 0; [split; [lia|split; [lia|reflexivity]]|].
      unfold unit. rewrite (Z.pow_add_r 2 e) by lia. ring.
    - assert (P : 0 < 2 ^ (- e)) by lia. destruct (half_even (Z.pos m) (2 ^ (- e)) P) as (H1 & H2). cbv zeta.
      match goal with |- exists M, _ /\ _ /\ Ok (if s then - ?N else _) = _ => set (N' := N) in *; exists N' end.
      fold N' in H1, H2. clearbody N'.
      assert (T : 0 < 2 ^ (e + 1074)) by lia.
      assert (EU : unit = 2 ^ (- e) * 2 ^ (e + 1074)) by (unfold unit; rewrite <- Z.pow_add_r by lia; f_equal; lia).
      assert (EA : Z.abs (N' * unit - Z.pos m * 2 ^ (e + 1074)) = Z.abs (N' * 2 ^ (- e) - Z.pos m) * 2 ^ (e + 1074)).
      { rewrite EU. replace (N' * (2 ^ (- e) * 2 ^ (e + 1074)) - Z.pos m * 2 ^ (e + 1074)) with
          ((N' * 2 ^ (- e) - Z.pos m) * 2 ^ (e + 1074)) by ring. rewrite Z.abs_mul, (Z.abs_eq (2 ^ (e + 1074))) by lia. reflexivity. }
      rewrite EA, EU. split; [rewrite Z.mul_assoc; apply Z.mul_le_mono_nonneg_r; lia|]. split; auto.
      intros H. apply H2. rewrite Z.mul_assoc in H. apply Z.mul_cancel_r in H; lia. }
  destruct K as (M & K1 & K2 & K3). rewrite K3. eexists. split; [reflexivity|].
  set (v := Z.pos m * 2 ^ (e + 1074)) in *.
  assert (Ev : units (S754_finite s m e) = if s then - v else v) by (cbn [units]; fold v; destruct s; lia). rewrite Ev.
  clearbody v. destruct s; unfold nearest_integer; apply nearest_of; auto.
  - replace (- M * unit - - v) with (- (M * unit - v)) by ring. rewrite Z.abs_opp. auto.
  - replace (- M * unit - - v) with (- (M * unit - v)) by ring. rewrite Z.abs_opp, Z.even_opp. auto.
Qed.

Lemma ieee2ibm_int_exact n z : word_ok z -> ibm_units z = n * unit ->
  exists w, ieee2ibm_int n = Ok w /\ word_ok w /\ ibm_units w = n * unit.
Proof.
  intros Hz Uz. pose proof unit_pos as PU. destruct (ieee2ibm_int_spec n) as (A & _). destruct A as (r & w & R & E & T).
  { pose proof (ibm_max_bound z Hz) as B. rewrite Uz, <- MAX_INT_units in B.
    rewrite Z.abs_mul, (Z.abs_eq unit) in B by lia. now apply Z.mul_le_mono_pos_r in B. }
  exists w. split; auto. split; [apply T|]. destruct (decoded_wf z Hz) as (Wz & Fz).
  assert (U : units r = ibm_units z).
  { rewrite <- decoded_units by auto. apply (rounds_exact_of (n * unit) 1); auto; try lia.
    rewrite decoded_units by auto. lia. }
  rewrite U in T. rewrite <- Uz. now apply truncation_exact.
Qed.

Lemma round_nearest w : word_ok w -> exists n w', ibm_round w = Ok w' /\ word_ok w' /\
  ibm_units w' = n * unit /\ nearest_integer (ibm_units w) n.
Proof.
  intros Hw. pose proof unit_pos as PU. destruct (decoded_wf w Hw) as (Wf & F).
  destruct (f_round_nearest (decoded w) Wf F) as (n & E & N). rewrite decoded_units in N by auto.
  unfold ibm_round. rewrite ibm_float_spec by auto. cbn [bind]. rewrite E. cbn [bind].
  assert (exists z, word_ok z /\ ibm_units z = n * unit) as (z & Hz & Uz).
  { destruct (word_parts w Hw) as (A & a & HA & Ha & (e & Ee & He) & Ew). destruct (Z.le_gt_cases 1074 a) as [L|L].
    - (* already an integer *)
      exists w. split; auto. rewrite Ew. unfold unit.
      assert (EA : A * 2 ^ a = A * 2 ^ (a - 1074) * 2 ^ 1074) by (rewrite <- Z.mul_assoc, <- Z.pow_add_r by lia; do 2 f_equal; lia).
      destruct (N (A * 2 ^ (a - 1074))) as (K & _). fold unit in EA. rewrite Ew, EA in K. fold unit. rewrite EA.
      rewrite Z.sub_diag in K. assert (n * unit - A * 2 ^ (a - 1074) * unit = 0) by lia. lia.
    - (* at most 2 ^ 24 in magnitude *)
      assert (B : Z.abs (ibm_units w) <= 2 ^ 20 * unit).
      { rewrite Ew, Z.abs_mul, (Z.abs_eq (2 ^ a)) by lia. unfold unit. apply Z.le_trans with (2 ^ 24 * 2 ^ 1070).
        - apply Z.mul_le_mono_nonneg; try lia. apply Z.pow_le_mono_r; lia.
        - rewrite <- !Z.pow_add_r by lia. apply Z.pow_le_mono_r; lia. }
      apply int_word. destruct (N 0) as (K & _). rewrite Z.mul_0_l, Z.sub_0_l, Z.abs_opp in K.
      assert (Z.abs n * unit <= 2 ^ 21 * unit).
      { rewrite <- (Z.abs_eq unit) at 1 by lia. rewrite <- Z.abs_mul. change (2 ^ 21) with (2 * 2 ^ 20). lia. }
      apply Z.mul_le_mono_pos_r in H; lia. }
  destruct (ieee2ibm_int_exact n z Hz Uz) as (w' & E' & Hw' & U'). rewrite E'. exists n, w'. auto.
Qed.

(* --- mixed arithmetic --- *)

Lemma float_arithmetic x g : word_ok x -> float_wf g -> finite g ->
  (Z.abs (ibm_units x + units g) < 2 ^ 2097 -> exists r, rounds_to (ibm_units x + units g) 1 r /\
     num_add (NIbm x) (NFloat g) = Ok (NFloat r) /\ num_add (NFloat g) (NIbm x) = Ok (NFloat r)) /\
  (Z.abs (ibm_units x - units g) < 2 ^ 2097 ->
     (exists r, rounds_to (ibm_units x - units g) 1 r /\ num_sub (NIbm x) (NFloat g) = Ok (NFloat r)) /\
     (exists r, rounds_to (units g - ibm_units x) 1 r /\ num_sub (NFloat g) (NIbm x) = Ok (NFloat r))) /\
  (Z.abs (ibm_units x * units g) < 2 ^ 2097 * unit -> exists r, rounds_to (ibm_units x * units g) unit r /\
     num_mul (NIbm x) (NFloat g) = Ok (NFloat r) /\ num_mul (NFloat g) (NIbm x) = Ok (NFloat r)) /\
  (units g <> 0 -> Z.abs (ibm_units x) < Z.abs (units g) * 2 ^ 1023 -> exists r,
     rounds_to (ibm_units x * unit * Z.sgn (units g)) (Z.abs (units g)) r /\ num_truediv (NIbm x) (NFloat g) = Ok (NFloat r)) /\
  (units g = 0 -> num_truediv (NIbm x) (NFloat g) = Err ZeroDivisionError).
Proof.
  intros Hx Wg Fg. destruct (decoded_wf x Hx) as (Wx & Fx). pose proof (decoded_units x Hx) as Ux.
  unfold num_add, num_sub, num_mul, num_truediv, operator, ibm_add_num, ibm_sub_num, ibm_mul_num, ibm_truediv_num,
    ibm_radd, ibm_rsub, ibm_rmul, num_float.
  rewrite !ibm_float_spec by auto. cbn [bind is_ibm ibm_if]. rewrite <- Ux. split; [|split; [|split; [|split]]].
  - intros B. exists (f_add (decoded x) g). split; [apply f_add_rounds; auto|]. rewrite (f_add_comm g). auto.
  - intros B. split.
    + exists (f_sub (decoded x) g). split; auto. rewrite f_sub_add.
      replace (units (decoded x) - units g) with (units (decoded x) + units (SFopp g)) by (rewrite opp_units; lia).
      apply f_add_rounds; auto using opp_wf, opp_finite. rewrite opp_units. exact B.
    + exists (f_sub g (decoded x)). split; auto. rewrite f_sub_add.
      replace (units g - units (decoded x)) with (units g + units (SFopp (decoded x))) by (rewrite opp_units; lia).
      apply f_add_rounds; auto using opp_wf, opp_finite. rewrite opp_units. change (1023 + 1074) with 2097. lia.
  - intros B. exists (f_mul (decoded x) g). rewrite (f_mul_comm g). split; auto. apply f_mul_rounds; auto.
  - intros Ng B. destruct (f_div_rounds (decoded x) g) as (r & -> & R); auto. exists r. auto.
  - intros Z0. unfold f_div. rewrite f_is_zero_units by auto. now rewrite Z0.
Qed.

Lemma f_of_int_rounds n : Z.abs n < 2 ^ 1023 -> exists g, f_of_int n = Ok g /\ rounds_to (n * unit) 1 g.
Proof.
  intros H. assert (R : rounds_to (n * unit) 1 (binary_normalize 53 1024 n 0 false)).
  { pose proof (binary_normalize_nearest n 0 ltac:(lia)) as K. apply K. change (0 + 1074) with 1074.
    rewrite Z.pow_add_r by lia. apply Z.mul_lt_mono_pos_r; lia. }
  exists (binary_normalize 53 1024 n 0 false). split; auto. unfold f_of_int. destruct R as (_ & F & _).
  destruct (binary_normalize 53 1024 n 0 false); cbn [finite] in F; auto; contradiction.
Qed.

Lemma f_of_int_exact n : Z.abs n <= 2 ^ 53 -> exists g, f_of_int n = Ok g /\ float_wf g /\ finite g /\ units g = n * unit.
Proof.
  intros H. destruct (f_of_int_rounds n) as (g & E & R).
  { eapply Z.le_lt_trans; [exact H|]. apply Z.pow_lt_mono_r; lia. }
  exists g. split; auto. split; [apply R|]. split; [apply R|].
  destruct (double_of_int n H) as (h & Wh & Fh & Uh). rewrite <- Uh. apply (rounds_exact_of (n * unit) 1); auto; lia.
Qed.

Lemma int_as_float x n g : word_ok x -> f_of_int n = Ok g ->
  num_add (NIbm x) (NInt n) = num_add (NIbm x) (NFloat g) /\ num_add (NInt n) (NIbm x) = num_add (NFloat g) (NIbm x) /\
  num_sub (NIbm x) (NInt n) = num_sub (NIbm x) (NFloat g) /\ num_sub (NInt n) (NIbm x) = num_sub (NFloat g) (NIbm x) /\
  num_mul (NIbm x) (NInt n) = num_mul (NIbm x) (NFloat g) /\ num_mul (NInt n) (NIbm x) = num_mul (NFloat g) (NIbm x) /\
  num_truediv (NIbm x) (NInt n) = num_truediv (NIbm x) (NFloat g) /\
  num_floordiv (NIbm x) (NInt n) = num_floordiv (NIbm x) (NFloat g) /\ num_floordiv (NInt n) (NIbm x) = num_floordiv (NFloat g) (NIbm x) /\
  num_mod (NIbm x) (NInt n) = num_mod (NIbm x) (NFloat g) /\ num_mod (NInt n) (NIbm x) = num_mod (NFloat g) (NIbm x).
Proof.
  intros Hx E. unfold num_add, num_sub, num_mul, num_truediv, num_floordiv, num_mod, operator, ibm_add_num, ibm_sub_num,
    ibm_mul_num, ibm_truediv_num, ibm_floordiv, ibm_mod_num, ibm_radd, ibm_rsub, ibm_rmul, ibm_rfloordiv, ibm_rmod, num_float.
  rewrite !ibm_float_spec by auto. rewrite E. cbn [bind is_ibm]. repeat split.
Qed.

Lemma int_arithmetic x n : word_ok x -> Z.abs n < 2 ^ 1023 -> exists g, rounds_to (n * unit) 1 g /\
  (Z.abs n <= 2 ^ 53 -> units g = n * unit) /\
  num_add (NIbm x) (NInt n) = num_add (NIbm x) (NFloat g) /\ num_add (NInt n) (NIbm x) = num_add (NFloat g) (NIbm x) /\
  num_sub (NIbm x) (NInt n) = num_sub (NIbm x) (NFloat g) /\ num_sub (NInt n) (NIbm x) = num_sub (NFloat g) (NIbm x) /\
  num_mul (NIbm x) (NInt n) = num_mul (NIbm x) (NFloat g) /\ num_mul (NInt n) (NIbm x) = num_mul (NFloat g) (NIbm x) /\
  num_truediv (NIbm x) (NInt n) = num_truediv (NIbm x) (NFloat g) /\
  (ibm_units x <> 0 -> Z.abs (units g) < Z.abs (ibm_units x) * 2 ^ 1023 -> exists r,
     rounds_to (units g * unit * Z.sgn (ibm_units x)) (Z.abs (ibm_units x)) r /\ num_truediv (NInt n) (NIbm x) = Ok (NFloat r)).
Proof.
  intros Hx Hn. destruct (f_of_int_rounds n Hn) as (g & E & R). exists g. split; auto.
  split. { intros S. destruct (f_of_int_exact n S) as (h & E' & _ & _ & U). congruence. }
  destruct (int_as_float x n g Hx E) as (A1 & A2 & A3 & A4 & A5 & A6 & A7 & _).
  do 7 (split; [assumption|]). intros Nx B.
  destruct (decoded_wf x Hx) as (Wx & Fx). pose proof (decoded_units x Hx) as Ux. rewrite <- Ux in *.
  destruct (f_div_rounds g (decoded x)) as (r & Er & Rr); auto; try apply R. exists r. split; auto.
  unfold num_truediv, operator, ibm_rtruediv, num_float. rewrite ibm_float_spec, E by auto. cbn [bind]. rewrite Er. reflexivity.
Qed.

(* float / IBMFloat *)
Lemma float_truediv g x : word_ok x -> float_wf g -> finite g -> ibm_units x <> 0 ->
  Z.abs (units g) < Z.abs (ibm_units x) * 2 ^ 1023 ->
  exists q, op_result (units g * unit * Z.sgn (ibm_units x)) (Z.abs (ibm_units x)) q /\
    num_truediv (NFloat g) (NIbm x) = (do w <- q ;; Ok (NIbm w)).
Proof.
  intros Hx Wg Fg Nx B. destruct (decoded_wf x Hx) as (Wx & Fx). pose proof (decoded_units x Hx) as Ux. rewrite <- Ux in *.
  unfold num_truediv, operator, ibm_rtruediv, num_float. rewrite ibm_float_spec by auto. cbn [bind].
  destruct (f_div_rounds g (decoded x)) as (r & -> & R); auto. cbn [bind is_float ibm_if].
  exists (from_float_without_underflow r). split; auto. now apply op_result_of.
Qed.

Lemma nonfinite x : word_ok x ->
  (forall s, num_add (NIbm x) (NFloat (S754_infinity s)) = Ok (NFloat (S754_infinity s)) /\
     num_add (NFloat (S754_infinity s)) (NIbm x) = Ok (NFloat (S754_infinity s)) /\
     num_sub (NIbm x) (NFloat (S754_infinity s)) = Ok (NFloat (S754_infinity (negb s))) /\
     num_sub (NFloat (S754_infinity s)) (NIbm x) = Ok (NFloat (S754_infinity s)) /\
     num_mul (NIbm x) (NFloat (S754_infinity s)) = Ok (NFloat (if ibm_units x =? 0 then S754_nan else S754_infinity (xorb (ibm_units x <? 0) s))) /\
     exists z, num_truediv (NIbm x) (NFloat (S754_infinity s)) = Ok (NFloat (S754_zero z))) /\
  num_add (NIbm x) (NFloat S754_nan) = Ok (NFloat S754_nan) /\ num_add (NFloat S754_nan) (NIbm x) = Ok (NFloat S754_nan) /\
  num_sub (NIbm x) (NFloat S754_nan) = Ok (NFloat S754_nan) /\ num_sub (NFloat S754_nan) (NIbm x) = Ok (NFloat S754_nan) /\
  num_mul (NIbm x) (NFloat S754_nan) = Ok (NFloat S754_nan) /\ num_mul (NFloat S754_nan) (NIbm x) = Ok (NFloat S754_nan) /\
  num_truediv (NIbm x) (NFloat S754_nan) = Ok (NFloat S754_nan).
Proof.
  intros Hx. destruct (decoded_wf x Hx) as (Wx & Fx). pose proof (decoded_units x Hx) as Ux.
  unfold num_add, num_sub, num_mul, num_truediv, operator, ibm_add_num, ibm_sub_num, ibm_mul_num, ibm_truediv_num,
    ibm_radd, ibm_rsub, ibm_rmul, num_float.
  rewrite !ibm_float_spec by auto. cbn [bind is_ibm ibm_if]. rewrite <- Ux.
  destruct (decoded x) as [z|z| |z m e]; cbn [finite] in Fx; try contradiction.
  - split; [|repeat split]. intros s. repeat split; eauto. eexists; reflexivity.
  - unfold float_wf in Wx. cbn [valid_binary] in Wx. apply bounded_spec in Wx.
    destruct (units_sign z m e) as (E & P); [lia|].
    split; [|repeat split]. intros s. do 4 (split; [reflexivity|]). split; [|eexists; reflexivity].
    rewrite E. replace ((if z then -1 else 1) * (Z.pos m * 2 ^ (e + 1074)) =? 0) with false by (destruct z; lia).
    replace ((if z then -1 else 1) * (Z.pos m * 2 ^ (e + 1074)) <? 0) with z by (destruct z; lia). reflexivity.
Qed.

Lemma both_ibm x y :
  num_add (NIbm x) (NIbm y) = (do w <- ibm_add x y ;; Ok (NIbm w)) /\
  num_sub (NIbm x) (NIbm y) = (do w <- ibm_sub x y ;; Ok (NIbm w)) /\
  num_mul (NIbm x) (NIbm y) = (do w <- ibm_mul x y ;; Ok (NIbm w)) /\
  num_truediv (NIbm x) (NIbm y) = (do w <- ibm_truediv x y ;; Ok (NIbm w)).
Proof.
  unfold num_add, num_sub, num_mul, num_truediv, operator, ibm_add_num, ibm_sub_num, ibm_mul_num, ibm_truediv_num, num_float,
    ibm_add, ibm_sub, ibm_mul, ibm_op, ibm_truediv. cbn [is_ibm ibm_if].
  destruct (ibm_float x); [|repeat split]. cbn [bind]. destruct (ibm_float y); [|repeat split]. cbn [bind ibm_if].
  do 3 (split; [reflexivity|]). destruct (f_div _ _); reflexivity.
Qed.

(* --- order --- *)

Lemma order_float x g : word_ok x -> float_wf g -> finite g ->
  num_lt (NIbm x) (NFloat g) = Ok (ibm_units x <? units g) /\ num_le (NIbm x) (NFloat g) = Ok (ibm_units x <=? units g) /\
  num_gt (NIbm x) (NFloat g) = Ok (units g <? ibm_units x) /\ num_ge (NIbm x) (NFloat g) = Ok (units g <=? ibm_units x) /\
  num_lt (NFloat g) (NIbm x) = Ok (units g <? ibm_units x) /\ num_le (NFloat g) (NIbm x) = Ok (units g <=? ibm_units x) /\
  num_gt (NFloat g) (NIbm x) = Ok (ibm_units x <? units g) /\ num_ge (NFloat g) (NIbm x) = Ok (ibm_units x <=? units g).
Proof.
  intros Hx Wg Fg. destruct (decoded_wf x Hx) as (Wx & Fx). unfold num_lt, num_le, num_gt, num_ge, comparison, num_float.
  rewrite !ibm_float_spec by auto. cbn [bind]. rewrite !f_lt_units, !f_le_units, !decoded_units by auto. repeat split.
Qed.

Lemma order_nonfinite x : word_ok x ->
  (forall s, num_lt (NIbm x) (NFloat (S754_infinity s)) = Ok (negb s) /\ num_le (NIbm x) (NFloat (S754_infinity s)) = Ok (negb s) /\
     num_gt (NIbm x) (NFloat (S754_infinity s)) = Ok s /\ num_ge (NIbm x) (NFloat (S754_infinity s)) = Ok s) /\
  num_lt (NIbm x) (NFloat S754_nan) = Ok false /\ num_le (NIbm x) (NFloat S754_nan) = Ok false /\
  num_gt (NIbm x) (NFloat S754_nan) = Ok false /\ num_ge (NIbm x) (NFloat S754_nan) = Ok false.
Proof.
  intros Hx. destruct (decoded_wf x Hx) as (Wx & Fx). unfold num_lt, num_le, num_gt, num_ge, comparison, num_float.
  rewrite !ibm_float_spec by auto. cbn [bind]. destruct (decoded x) as [z|z| |z m e]; cbn [finite] in Fx; try contradiction;
    (split; [intros []; repeat split|repeat split]).
Qed.

Lemma order_int x n : word_ok x -> Z.abs n <= 2 ^ 53 ->
  num_lt (NIbm x) (NInt n) = Ok (ibm_units x <? n * unit) /\ num_le (NIbm x) (NInt n) = Ok (ibm_units x <=? n * unit) /\
  num_gt (NIbm x) (NInt n) = Ok (n * unit <? ibm_units x) /\ num_ge (NIbm x) (NInt n) = Ok (n * unit <=? ibm_units x) /\
  num_lt (NInt n) (NIbm x) = Ok (n * unit <? ibm_units x) /\ num_le (NInt n) (NIbm x) = Ok (n * unit <=? ibm_units x) /\
  num_gt (NInt n) (NIbm x) = Ok (ibm_units x <? n * unit) /\ num_ge (NInt n) (NIbm x) = Ok (ibm_units x <=? n * unit).
Proof.
  intros Hx Hn. destruct (f_of_int_exact n Hn) as (g & E & Wg & Fg & U). rewrite <- U.
  destruct (order_float x g Hx Wg Fg) as (A1 & A2 & A3 & A4 & A5 & A6 & A7 & A8).
  unfold num_lt, num_le, num_gt, num_ge, comparison, num_float in *. rewrite E. repeat split; assumption.
Qed.

(* a rounded integer stays on the same side of a double *)
Lemma rounding_side N r u g : rounds_to N 1 r -> float_wf g -> finite g -> units g = u ->
  (u < units r -> u < N) /\ (units r < u -> N < u).
Proof.
  intros (_ & _ & R) Wg Fg U. destruct (R g Wg Fg) as (A & _). rewrite U in A. lia.
Qed.

Lemma order_int_sound x n : word_ok x -> Z.abs n < 2 ^ 1023 ->
  (num_lt (NIbm x) (NInt n) = Ok true -> ibm_units x < n * unit) /\
  (num_gt (NIbm x) (NInt n) = Ok true -> n * unit < ibm_units x) /\
  (ibm_units x <= n * unit -> num_le (NIbm x) (NInt n) = Ok true) /\
  (n * unit <= ibm_units x -> num_ge (NIbm x) (NInt n) = Ok true).
Proof.
  intros Hx Hn. destruct (f_of_int_rounds n Hn) as (g & E & R).
  assert (Wg : float_wf g) by apply R. assert (Fg : finite g) by apply R.
  destruct (order_float x g Hx Wg Fg) as (A1 & A2 & A3 & A4 & _).
  destruct (decoded_wf x Hx) as (Wx & Fx). pose proof (decoded_units x Hx) as Ux.
  destruct (rounding_side _ _ _ _ R Wx Fx Ux) as (K1 & K2).
  unfold num_lt, num_le, num_gt, num_ge, comparison, num_float in *. rewrite E.
  rewrite A1, A2, A3, A4. repeat split.
  - intros H. apply K1. injection H. lia.
  - intros H. apply K2. injection H. lia.
  - intros H. f_equal. lia.
  - intros H. f_equal. lia.
Qed.

(* --- counterexamples --- *)

Definition one : float := S754_finite false 4503599627370496 (-52).

(* 1.0 / IBMFloat(3) is an IBMFloat, smaller than the double nearest to 1/3 *)
Lemma float_truediv_truncates : exists g x w r, word_ok x /\ float_wf g /\
  num_truediv (NFloat g) (NIbm x) = Ok (NIbm w) /\
  rounds_to (units g * unit * Z.sgn (ibm_units x)) (Z.abs (ibm_units x)) r /\ ibm_units w < units r /\
  num_truediv (NInt 1) (NIbm x) = Ok (NFloat r) /\ units g = 1 * unit.
Proof.
  exists one, (W 65 48 0 0), (W 64 85 85 85), (S754_finite false 6004799503160661 (-54)).
  assert (H3 : word_ok (W 65 48 0 0)) by (repeat split; cbn; lia).
  assert (E : num_truediv (NInt 1) (NIbm (W 65 48 0 0)) = Ok (NFloat (S754_finite false 6004799503160661 (-54)))) by (vm_compute; reflexivity).
  split; auto. split; [reflexivity|]. split; [vm_compute; reflexivity|].
  split; [|split; [vm_compute; reflexivity|split; [exact E|vm_compute; reflexivity]]].
  destruct (int_arithmetic (W 65 48 0 0) 1 H3) as (g & _ & U & _ & _ & _ & _ & _ & _ & _ & D); [lia|].
  specialize (U ltac:(lia)). rewrite U in D. destruct D as (r & R & E'); [vm_compute; discriminate|vm_compute; reflexivity|].
  rewrite E in E'. injection E' as <-. exact R.
Qed.

(* 1e80 / IBMFloat(1) *)
Lemma float_truediv_overflows : exists g x r, word_ok x /\ float_wf g /\ finite g /\ ibm_units x = unit /\
  num_truediv (NFloat g) (NIbm x) = Err OverflowError /\ num_mul (NFloat g) (NIbm x) = Ok (NFloat r) /\ units r = units g.
Proof.
  exists (S754_finite false 4503599627370496 300), (W 65 16 0 0), (S754_finite false 4503599627370496 300).
  split; [repeat split; cbn; lia|]. repeat split; vm_compute; reflexivity.
Qed.

(* 2^60 // 3 *)
Lemma floordiv_wrong : exists x y n, word_ok x /\ word_ok y /\ ibm_units y <> 0 /\
  num_floordiv (NIbm x) (NIbm y) = Ok (NInt n) /\ n <> ibm_units x / ibm_units y.
Proof.
  exists (W 80 16 0 0), (W 65 48 0 0), 384307168202282304.
  split; [repeat split; cbn; lia|]. split; [repeat split; cbn; lia|].
  split; [vm_compute; discriminate|]. split; [vm_compute; reflexivity|]. vm_compute. discriminate.
Qed.

(* -16^-65 % 1 is 1 *)
Lemma mod_not_below : exists x y w, word_ok x /\ word_ok y /\ ibm_units y <> 0 /\
  num_mod (NIbm x) (NIbm y) = Ok (NIbm w) /\ ibm_units w = ibm_units y.
Proof.
  exists (W 128 16 0 0), (W 65 16 0 0), (W 65 16 0 0).
  split; [repeat split; cbn; lia|]. split; [repeat split; cbn; lia|].
  split; [vm_compute; discriminate|]. split; [vm_compute; reflexivity|]. reflexivity.
Qed.

(* 2^53 against 2^53 + 1 *)
Lemma order_int_wrong : exists x n, word_ok x /\ ibm_units x < n * unit /\
  num_lt (NIbm x) (NInt n) = Ok false /\ num_gt (NIbm x) (NInt n) = Ok false /\ ibm_eq_rational x n 1 = false.
Proof.
  exists (W 78 32 0 0), (2 ^ 53 + 1). split; [repeat split; cbn; lia|].
  repeat split; vm_compute; reflexivity.
Qed.

(* every IBMFloat is below 2^1024, but comparing them fails *)
Lemma order_int_fails : exists x n, word_ok x /\ ibm_units x < n * unit /\ num_lt (NIbm x) (NInt n) = Err OverflowError.
Proof.
  exists (W 65 16 0 0), (2 ^ 1024). split; [repeat split; cbn; lia|]. split; vm_compute; reflexivity.
Qed.
