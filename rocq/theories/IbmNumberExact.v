(* Proofs of the exact outcome of floor division and of order against ints. *)
From Coq Require Import ZArith List Bool Lia ZifyBool ZifyNat SpecFloat.
From Verif Require Import Py PyFloat IbmFloat IbmNumber PyFacts Spec_Ibm Spec_IbmNumber FloatFacts RoundFacts IbmFacts IbmArith
  IbmNumberFacts IbmNumberProps.
Import ListNotations.
Open Scope Z_scope.

(* --- floor division --- *)

Lemma floordiv_floats x y r : float_wf r -> finite r -> f_div x y = Ok r ->
  (do q <- f_div x y ;; do n <- f_floor q ;; Ok (NInt n)) = Ok (NInt (units r / unit)).
Proof. intros W F ->. cbn [bind]. rewrite f_floor_units by auto. reflexivity. Qed.

Lemma ibm_ratio x y : word_ok x -> word_ok y -> ibm_units y <> 0 -> Z.abs (ibm_units x) < Z.abs (ibm_units y) * 2 ^ 1023.
Proof.
  intros Hx Hy Ny. destruct (word_parts y Hy) as (B & b & HB & Hb & _ & Ey).
  assert (L : 2 ^ 794 <= Z.abs (ibm_units y)).
  { rewrite Ey, Z.abs_mul. rewrite (Z.abs_eq (2 ^ b)) by (apply Z.pow_nonneg; lia).
    assert (NB : B <> 0) by (intros ->; apply Ny; rewrite Ey; reflexivity).
    apply Z.le_trans with (1 * 2 ^ b); [rewrite Z.mul_1_l; apply Z.pow_le_mono_r; lia|].
    apply Z.mul_le_mono_nonneg_r; [apply Z.pow_nonneg; lia|lia]. }
  pose proof (ibm_small x Hx) as S. eapply Z.lt_le_trans; [exact S|].
  apply Z.le_trans with (2 ^ 794 * 2 ^ 1023).
  - rewrite <- Z.pow_add_r by lia. apply Z.pow_le_mono_r; lia.
  - apply Z.mul_le_mono_nonneg_r; [apply Z.pow_nonneg; lia|exact L].
Qed.

Lemma floordiv_exact x y : word_ok x -> word_ok y -> ibm_units y <> 0 ->
  exists r, rounds_to (ibm_units x * unit * Z.sgn (ibm_units y)) (Z.abs (ibm_units y)) r /\
    num_floordiv (NIbm x) (NIbm y) = Ok (NInt (units r / unit)).
Proof.
  intros Hx Hy Ny. destruct (decoded_wf x Hx) as (Wx & Fx), (decoded_wf y Hy) as (Wy & Fy).
  destruct (f_div_rounds (decoded x) (decoded y)) as (r & E & R); auto.
  - now rewrite decoded_units.
  - rewrite !decoded_units by auto. now apply ibm_ratio.
  - rewrite !decoded_units in R by auto. exists r. split; [exact R|].
    unfold num_floordiv, operator, ibm_floordiv, num_float. rewrite !ibm_float_spec by auto. cbn [bind].
    apply floordiv_floats; [apply R|apply R|exact E].
Qed.

Lemma floordiv_float x g : word_ok x -> float_wf g -> finite g ->
  (units g <> 0 -> Z.abs (ibm_units x) < Z.abs (units g) * 2 ^ 1023 ->
   exists r, rounds_to (ibm_units x * unit * Z.sgn (units g)) (Z.abs (units g)) r /\
     num_floordiv (NIbm x) (NFloat g) = Ok (NInt (units r / unit))) /\
  (units g = 0 -> num_floordiv (NIbm x) (NFloat g) = Err ZeroDivisionError) /\
  (ibm_units x <> 0 -> Z.abs (units g) < Z.abs (ibm_units x) * 2 ^ 1023 ->
   exists r, rounds_to (units g * unit * Z.sgn (ibm_units x)) (Z.abs (ibm_units x)) r /\
     num_floordiv (NFloat g) (NIbm x) = Ok (NInt (units r / unit))).
Proof.
  intros Hx Wg Fg. destruct (decoded_wf x Hx) as (Wx & Fx). pose proof (decoded_units x Hx) as Ux.
  unfold num_floordiv, operator, ibm_floordiv, ibm_rfloordiv, num_float. rewrite !ibm_float_spec by auto. cbn [bind].
  split; [|split].
  - intros N B. destruct (f_div_rounds (decoded x) g) as (r & E & R); auto; [now rewrite Ux|].
    rewrite Ux in R. exists r. split; [exact R|]. apply floordiv_floats; [apply R|apply R|exact E].
  - intros Z0. unfold f_div. rewrite f_is_zero_units by auto. rewrite Z0. reflexivity.
  - intros N B. destruct (f_div_rounds g (decoded x)) as (r & E & R); auto; [now rewrite Ux|now rewrite Ux|].
    rewrite Ux in R. exists r. split; [exact R|]. apply floordiv_floats; [apply R|apply R|exact E].
Qed.

Lemma floordiv_nonfinite x : word_ok x ->
  num_floordiv (NIbm x) (NFloat S754_nan) = Err ValueError /\
  (forall s, num_floordiv (NIbm x) (NFloat (S754_infinity s)) = Ok (NInt 0)) /\
  (ibm_units x <> 0 -> num_floordiv (NFloat S754_nan) (NIbm x) = Err ValueError /\
     forall s, num_floordiv (NFloat (S754_infinity s)) (NIbm x) = Err OverflowError).
Proof.
  intros Hx. destruct (decoded_wf x Hx) as (Wx & Fx). pose proof (decoded_units x Hx) as Ux.
  unfold num_floordiv, operator, ibm_floordiv, ibm_rfloordiv, num_float. rewrite !ibm_float_spec by auto. cbn [bind].
  destruct (decoded x) as [z|z| |z m e]; cbn [finite] in Fx; try contradiction.
  - split; [reflexivity|]. split; [reflexivity|]. intros N. exfalso. apply N. rewrite <- Ux. reflexivity.
  - split; [reflexivity|]. split; [reflexivity|]. intros N. split; reflexivity.
Qed.

(* --- order against ints --- *)

Lemma order_as_float x n g : word_ok x -> f_of_int n = Ok g -> float_wf g -> finite g ->
  ordered_as (NIbm x) (NInt n) (ibm_units x) (units g).
Proof.
  intros Hx E Wg Fg. pose proof (order_float x g Hx Wg Fg) as A.
  unfold ordered_as, num_lt, num_le, num_gt, num_ge, comparison, num_float in *. rewrite E. exact A.
Qed.
Lemma order_overflow x n : word_ok x -> f_of_int n = Err OverflowError -> order_fails (NIbm x) (NInt n) OverflowError.
Proof.
  intros Hx E. unfold order_fails, num_lt, num_le, num_gt, num_ge, comparison, num_float. rewrite E.
  rewrite !ibm_float_spec by auto. cbn [bind]. repeat split.
Qed.
Lemma order_int_rounds x n : word_ok x -> Z.abs n < 2 ^ 1023 ->
  exists g, rounds_to (n * unit) 1 g /\ ordered_as (NIbm x) (NInt n) (ibm_units x) (units g).
Proof.
  intros Hx Hn. destruct (f_of_int_rounds n Hn) as (g & E & R). exists g. split; [exact R|].
  apply order_as_float; auto; apply R.
Qed.

Lemma ordered_same x n a u v : (a < u <-> a < v) -> (a = u <-> a = v) -> ordered_as x n a u -> ordered_as x n a v.
Proof.
  intros L Q. unfold ordered_as.
  replace (a <? v) with (a <? u) by lia. replace (a <=? v) with (a <=? u) by lia.
  replace (v <? a) with (u <? a) by lia. replace (v <=? a) with (u <=? a) by lia. auto.
Qed.

Lemma round_sign s p e : match binary_round 53 1024 s p e with S754_finite t _ _ => t = s | _ => True end.
Proof.
  unfold binary_round. destruct (shl_align p e _) as (m, ex). unfold binary_round_aux.
  destruct (shr_fexp 53 1024 _ _ _) as (r & e1). destruct (shr_fexp 53 1024 _ e1 _) as (r2 & e2).
  destruct (shr_m r2); [exact I| |exact I]. destruct (_ <=? _); [reflexivity|exact I].
Qed.

Lemma sign_of_int n g : f_of_int n = Ok g -> finite g -> 0 <= n * units g.
Proof.
  unfold f_of_int, binary_normalize. destruct n as [|p|p].
  - intros _ _. lia.
  - pose proof (round_sign false p 0) as S. destruct (binary_round 53 1024 false p 0) as [s|s| |s m e]; intros [= <-] F; cbn [units]; try lia.
    rewrite S. apply Z.mul_nonneg_nonneg; [lia|]. apply Z.mul_nonneg_nonneg; [lia|]. apply Z.mul_nonneg_nonneg; [lia|apply Z.pow_nonneg; lia].
  - pose proof (round_sign true p 0) as S. destruct (binary_round 53 1024 true p 0) as [s|s| |s m e]; intros [= <-] F; cbn [units]; try lia.
    rewrite S. apply Z.mul_nonpos_nonpos; [lia|]. assert (0 <= Z.pos m * 2 ^ (e + 1074)) by (apply Z.mul_nonneg_nonneg; [lia|apply Z.pow_nonneg; lia]). lia.
Qed.

Lemma beyond_ibm a b c : Z.abs a < b -> (b <= c \/ c <= - b) -> forall d, (b <= d \/ d <= - b) -> 0 <= c * d -> 0 < b ->
  (a < c <-> a < d) /\ (a = c <-> a = d).
Proof. intros A [C|C] d [D|D] S B; try nia; lia. Qed.

Lemma order_int_beyond x n : word_ok x -> 2 ^ 252 <= Z.abs n ->
  ordered_as (NIbm x) (NInt n) (ibm_units x) (n * unit) \/
  (2 ^ 1023 <= Z.abs n /\ order_fails (NIbm x) (NInt n) OverflowError).
Proof.
  intros Hx Hn. pose proof (ibm_small x Hx) as S.
  assert (P : 2 ^ 1326 = 2 ^ 252 * unit) by (unfold unit; rewrite <- Z.pow_add_r by lia; reflexivity).
  assert (NU : 2 ^ 1326 <= n * unit \/ n * unit <= - 2 ^ 1326).
  { rewrite P. pose proof unit_pos as U. revert Hn U. generalize unit, (2 ^ 252). intros u p Hn U. nia. }
  assert (P0 : 0 < 2 ^ 1326) by (apply Z.pow_pos_nonneg; lia).
  destruct (Z_lt_dec (Z.abs n) (2 ^ 1023)) as [L|L].
  - left. destruct (order_int_rounds x n Hx L) as (g & (_ & _ & R) & O).
    destruct (double_of 1 1326 ltac:(lia) ltac:(lia)) as (h & Wh & Fh & Uh).
    destruct (double_of (-1) 1326 ltac:(lia) ltac:(lia)) as (k & Wk & Fk & Uk).
    destruct (R h Wh Fh) as (R1 & _). destruct (R k Wk Fk) as (R2 & _). rewrite Uh in R1. rewrite Uk in R2. clear R Uh Uk Hn L P.
    destruct (beyond_ibm (ibm_units x) (2 ^ 1326) (units g)) with (d := n * unit) as (B1 & B2); auto.
    + revert R1 R2 NU P0. generalize (2 ^ 1326), (n * unit), (units g). intros. lia.
    + revert R1 R2 NU P0. generalize (2 ^ 1326), (n * unit), (units g). intros p N u R1 R2 [NU|NU] P0.
      * assert (p <= u) by lia. nia.
      * assert (u <= - p) by lia. nia.
    + exact (ordered_same _ _ _ _ _ B1 B2 O).
  - pose proof (large_int n ltac:(lia)) as LI. destruct (f_of_int n) as [g|e] eqn:E.
    + left. assert (FI : finite g) by (destruct g; try contradiction; exact I).
      pose proof (sign_of_int n g E FI) as SG. destruct g as [s|s| |s m e]; try contradiction. destruct LI as (Le & Bd).
      set (u := units (S754_finite s m e)) in *.
      assert (UU : 2 ^ 1326 <= u \/ u <= - 2 ^ 1326).
      { assert (2 ^ 1326 <= Z.pos m * 2 ^ (e + 1074)).
        { apply Z.le_trans with (1 * 2 ^ (e + 1074)); [rewrite Z.mul_1_l; apply Z.pow_le_mono_r; lia|].
          apply Z.mul_le_mono_nonneg_r; [apply Z.pow_nonneg; lia|lia]. }
        unfold u. cbn [units]. destruct s; lia. }
      destruct (beyond_ibm (ibm_units x) (2 ^ 1326) u S UU (n * unit) NU) as (B1 & B2); auto.
      { pose proof unit_pos as U. clearbody u. revert SG U. generalize unit. intros. nia. }
      apply (ordered_same _ _ _ u _ B1 B2). unfold u. apply order_as_float; auto.
    + right. subst e. split; [lia|]. now apply order_overflow.
Qed.

(* ints of 1025 bits and more *)
Lemma huge_round s p : 2 ^ 1024 <= Z.pos p -> binary_round 53 1024 s p 0 = S754_infinity s.
Proof.
  intros H. unfold binary_round, shl_align. change (Z.pos (digits2_pos p)) with (Zd (Z.pos p)).
  assert (D : 1025 <= Zd (Z.pos p)) by (apply Zd_ge; [exact H|lia]).
  assert (DB := Zd_bounds (Z.pos p) ltac:(lia)).
  rewrite Z.add_0_r, Z.sub_0_r. rewrite fexp_max. set (f := Z.max (Zd (Z.pos p) - 53) (-1074)).
  assert (Ef : f = Zd (Z.pos p) - 53) by lia.
  destruct f as [|k|k] eqn:F; try lia. rewrite <- F in *. clear F.
  unfold binary_round_aux, shr_fexp at 1. fold (Zd (Z.pos p)). rewrite Z.add_0_r, fexp_max. fold f. rewrite Z.sub_0_r.
  destruct (shr_inb (Z.pos p) loc_Exact 0 f 1 (Z.pos p) ltac:(lia) ltac:(lia) ltac:(lia)) as (rec & Sh & B' & M1).
  { pose proof (inb_exact (Z.pos p) 1) as B. rewrite Z.mul_1_r in B. exact B. }
  rewrite Sh. rewrite Z.add_0_l.
  assert (R : 2 ^ 52 <= shr_m rec < 2 ^ 53).
  { rewrite M1. split.
    - apply Z.div_le_lower_bound; [lia|]. rewrite <- Z.pow_add_r by lia. replace (f + 52) with (Zd (Z.pos p) - 1) by lia. apply DB.
    - apply Z.div_lt_upper_bound; [lia|]. rewrite <- Z.pow_add_r by lia. replace (f + 53) with (Zd (Z.pos p)) by lia. apply DB. }
  pose proof (rne_ge (shr_m rec) (loc_of_shr_record rec)) as RN. set (M := round_nearest_even _ _) in *. clearbody M.
  unfold shr_fexp. fold (Zd M). rewrite fexp_max.
  assert (DM : 53 <= Zd M <= 54). { split; [apply Zd_ge; lia|apply Zd_lt; lia]. }
  destruct (shr_inb M loc_Exact f (Z.max (Zd M + f - 53) (-1074) - f) 1 M ltac:(lia) ltac:(lia) ltac:(lia)) as (rec2 & Sh2 & _ & M2).
  { pose proof (inb_exact M 1) as B. rewrite Z.mul_1_r in B. exact B. }
  rewrite Sh2. assert (P2 : 2 ^ 52 <= shr_m rec2 < 2 ^ 53).
  { rewrite M2. assert (K : Zd M = 53 \/ Zd M = 54) by lia. destruct K as [K|K]; rewrite K.
    - replace (Z.max (53 + f - 53) (-1074) - f) with 0 by lia. rewrite Z.pow_0_r, Z.div_1_r.
      pose proof (Zd_bounds M ltac:(lia)) as B. rewrite K in B. lia.
    - replace (Z.max (54 + f - 53) (-1074) - f) with 1 by lia. pose proof (Zd_bounds M ltac:(lia)) as B. rewrite K in B.
      assert (M = 2 ^ 53) as -> by lia. split; [vm_compute; discriminate|vm_compute; reflexivity]. }
  destruct (shr_m rec2) as [|m|m]; try lia. destruct (_ <=? _) eqn:E; [|reflexivity]. lia.
Qed.
Lemma huge_int n : 2 ^ 1024 <= Z.abs n -> f_of_int n = Err OverflowError.
Proof.
  intros H. unfold f_of_int, binary_normalize. destruct n as [|p|p]; [exfalso; apply Z.le_ngt in H; apply H; reflexivity| |];
    now rewrite huge_round.
Qed.
Lemma order_int_huge x n : word_ok x -> 2 ^ 1024 <= Z.abs n -> order_fails (NIbm x) (NInt n) OverflowError.
Proof. intros Hx Hn. apply order_overflow; [exact Hx|now apply huge_int]. Qed.
