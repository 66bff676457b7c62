(* Proofs about the IBM float model. *)
From Coq Require Import ZArith List Bool Lia ZifyBool ZifyNat.
From Verif Require Import Py PyFloat IbmFloat PyFacts Spec_Ibm FloatFacts.
Import ListNotations.
Open Scope Z_scope.
Ltac Zify.zify_post_hook ::= Z.div_mod_to_equations.

(* --- bits of bytes --- *)

Definition byte_facts (a : Z) : bool :=
  (Z.land a 127 =? a mod 128) && Bool.eqb (Z.land a 128 =? 0) (a <? 128) &&
  (Z.lxor a 128 =? if a <? 128 then a + 128 else a - 128) &&
  (if a <? 128 then (Z.lor 0 a =? a) && (Z.lor 128 a =? 128 + a) else true).

Lemma byte_facts_all a : 0 <= a < 256 -> byte_facts a = true.
Proof.
  intros H.
  assert (A : forallb byte_facts (map Z.of_nat (seq 0 256)) = true) by (vm_compute; reflexivity).
  rewrite forallb_forall in A. apply A. apply in_map_iff. exists (Z.to_nat a).
  split; [lia|]. apply in_seq. lia.
Qed.

Lemma byte_land127 a : 0 <= a < 256 -> Z.land a 127 = a mod 128.
Proof. intros H. pose proof (byte_facts_all a H) as F. unfold byte_facts in F. rewrite !andb_true_iff in F. destruct (a <? 128); lia. Qed.
Lemma byte_land128 a : 0 <= a < 256 -> (Z.land a 128 =? 0) = (a <? 128).
Proof.
  intros H. pose proof (byte_facts_all a H) as F. unfold byte_facts in F. rewrite !andb_true_iff in F.
  apply eqb_prop. tauto.
Qed.
Lemma byte_lxor a : 0 <= a < 256 -> Z.lxor a 128 = if a <? 128 then a + 128 else a - 128.
Proof. intros H. pose proof (byte_facts_all a H) as F. unfold byte_facts in F. rewrite !andb_true_iff in F. destruct (a <? 128); lia. Qed.
Lemma byte_lor (s : bool) a : 0 <= a < 128 -> Z.lor (if s then 128 else 0) a = (if s then 128 else 0) + a.
Proof.
  intros H. pose proof (byte_facts_all a ltac:(lia)) as F. unfold byte_facts in F. rewrite !andb_true_iff in F.
  replace (a <? 128) with true in F by lia. destruct s; lia.
Qed.

Lemma lor_add x y n : 0 <= n -> 0 <= y < 2 ^ n -> Z.lor (x * 2 ^ n) y = x * 2 ^ n + y.
Proof.
  intros Hn Hy. assert (L : Z.land (x * 2 ^ n) y = 0).
  { apply Z.bits_inj'. intros k Hk. rewrite Z.land_spec, Z.bits_0.
    destruct (Z.lt_ge_cases k n).
    - rewrite Z.mul_pow2_bits_low by lia. reflexivity.
    - rewrite <- (Z.mod_small y (2 ^ n)) by lia. rewrite Z.mod_pow2_bits_high by lia. apply andb_false_r. }
  rewrite <- Z.lxor_lor by exact L. now rewrite Z.add_nocarry_lxor.
Qed.

Lemma bytes_mantissa b c d : 0 <= b < 256 -> 0 <= c < 256 -> 0 <= d < 256 ->
  Z.lor (Z.lor (Z.shiftl b 16) (Z.shiftl c 8)) d = (b * 256 + c) * 256 + d.
Proof.
  intros Hb Hc Hd. rewrite !Z.shiftl_mul_pow2 by lia.
  rewrite lor_add by lia.
  replace (b * 2 ^ 16 + c * 2 ^ 8) with ((b * 256 + c) * 2 ^ 8) by lia.
  rewrite lor_add by lia. lia.
Qed.

(* --- words --- *)

Definition mkword (s : bool) (E M : Z) : word :=
  W ((if s then 128 else 0) + E) (M / 65536) (M / 256 mod 256) (M mod 256).

Lemma mkword_ok s E M : 0 <= E < 128 -> 0 <= M < 2 ^ 24 -> word_ok (mkword s E M).
Proof. intros. change (2 ^ 24) with 16777216 in *. unfold word_ok, mkword; cbn. destruct s; lia. Qed.

Lemma mkword_E s E M : 0 <= E < 128 -> ibm_E (mkword s E M) = E.
Proof. intros. unfold ibm_E, mkword; cbn [w0]. destruct s; lia. Qed.
Lemma mkword_M s E M : 0 <= M < 2 ^ 24 -> ibm_M (mkword s E M) = M.
Proof. intros. change (2 ^ 24) with 16777216 in *. unfold ibm_M, mkword; cbn [w1 w2 w3]. lia. Qed.
Lemma mkword_sign s E M : 0 <= E < 128 -> ibm_sign (mkword s E M) = if s then -1 else 1.
Proof. intros. unfold ibm_sign, mkword; cbn [w0]. destruct s; [replace (128 + E <? 128) with false by lia|replace (0 + E <? 128) with true by lia]; reflexivity. Qed.

Lemma E_range w : 0 <= ibm_E w < 128. Proof. unfold ibm_E. lia. Qed.
Lemma M_range w : word_ok w -> 0 <= ibm_M w < 2 ^ 24.
Proof. unfold word_ok, ibm_M. change (2 ^ 24) with 16777216. lia. Qed.

Lemma word_mkword w : word_ok w -> w = mkword (negb (w0 w <? 128)) (ibm_E w) (ibm_M w).
Proof.
  destruct w as [a b c d]. unfold word_ok, mkword, ibm_E, ibm_M. cbn [w0 w1 w2 w3]. intros H.
  f_equal; try lia. destruct (a <? 128) eqn:E; cbn [negb]; lia.
Qed.

Lemma signbit_spec w : word_ok w -> signbit w = negb (w0 w <? 128).
Proof. unfold word_ok, signbit. intros. now rewrite byte_land128 by lia. Qed.
Lemma exp16_spec w : word_ok w -> exp16 w = ibm_E w - 64.
Proof. unfold word_ok, exp16, EXPONENT_BIAS. intros. now rewrite byte_land127 by lia. Qed.
Lemma int_mantissa_spec w : word_ok w -> int_mantissa w = ibm_M w.
Proof. unfold word_ok, int_mantissa, ibm_M. intros. apply bytes_mantissa; lia. Qed.
Lemma is_zero_spec w : word_ok w -> is_zero w = (ibm_M w =? 0).
Proof. intros. unfold is_zero. now rewrite int_mantissa_spec. Qed.

Lemma ibm_units_eq w : ibm_units w = ibm_sign w * (ibm_M w * 2 ^ (4 * ibm_E w + 794)).
Proof. unfold ibm_units. do 3 f_equal. lia. Qed.

Lemma ibm_units_zero w : word_ok w -> ibm_units w = 0 <-> ibm_M w = 0.
Proof.
  intros H. rewrite ibm_units_eq. pose proof (E_range w). pose proof (M_range w H).
  assert (P : 0 < 2 ^ (4 * ibm_E w + 794)) by lia. unfold ibm_sign.
  split; [|intros ->; lia]. destruct (w0 w <? 128); nia.
Qed.

(* --- decoding --- *)

Definition decoded (w : word) : float :=
  if ibm_M w =? 0 then S754_zero false
  else S754_finite (negb (w0 w <? 128)) (nm (ibm_M w)) (nd (ibm_M w) + 4 * ibm_E w - 333).

Lemma small53 M : 0 <= M < 2 ^ 24 -> M <> 0 -> 0 < M < 2 ^ 53.
Proof. change (2 ^ 24) with 16777216. change (2 ^ 53) with 9007199254740992. lia. Qed.

Lemma f_of_int_sign (s : bool) :
  f_of_int (if s then -1 else 1) = Ok (S754_finite s p52 (0 - 52)).
Proof. destruct s; vm_compute; reflexivity. Qed.

Lemma nd_24 M : 0 < M < 2 ^ 24 -> 1 <= nd M <= 24.
Proof.
  intros H. unfold nd. pose proof (Z.log2_nonneg M).
  assert (Z.log2 M < 24) by (apply Z.log2_lt_pow2; lia). lia.
Qed.

Lemma f_mul_pow16_spec s m e n : 2 ^ 52 <= Z.pos m < 2 ^ 53 -> -64 <= n <= 63 -> -1000 <= e + 4 * n <= 971 ->
  f_mul_pow16 (S754_finite s m e) n = Ok (S754_finite s m (e + 4 * n)).
Proof.
  intros M N R. unfold f_mul_pow16. destruct (0 <=? n) eqn:E.
  - rewrite f_of_int_pow16 by lia. cbn [bind]. rewrite f_mul_pow2 by (auto; lia).
    now rewrite xorb_false_r.
  - rewrite f_pow2_eq by lia. rewrite f_mul_pow2 by (auto; lia). now rewrite xorb_false_r.
Qed.

Lemma ibm2ieee_decoded w : word_ok w -> ibm2ieee_word w = Ok (decoded w).
Proof.
  intros Hw. pose proof (M_range w Hw) as HM. pose proof (E_range w) as HE.
  unfold decoded. destruct w as [a b c d] eqn:Ew. rewrite <- Ew in *.
  assert (Ez : (b =? 0) && (c =? 0) && (d =? 0) = (ibm_M w =? 0)).
  { rewrite Ew in *. unfold ibm_M, word_ok in *. cbn [w0 w1 w2 w3] in *. lia. }
  unfold ibm2ieee_word. rewrite Ew at 1. rewrite Ez. destruct (ibm_M w =? 0) eqn:Z0; [reflexivity|].
  assert (Hb : word_ok (W a b c d)) by (rewrite <- Ew; auto). unfold word_ok in Hb. cbn [w0 w1 w2 w3] in Hb.
  rewrite bytes_mantissa by lia.
  replace ((b * 256 + c) * 256 + d) with (ibm_M w) by (rewrite Ew; reflexivity).
  rewrite byte_land127, byte_land128 by lia.
  replace (a mod 128) with (ibm_E w) by (rewrite Ew; reflexivity).
  replace a with (w0 w) by (rewrite Ew; reflexivity).
  assert (H53 : 0 < ibm_M w < 2 ^ 53) by (apply small53; lia).
  assert (H24 : 1 <= nd (ibm_M w) <= 24) by (apply nd_24; lia).
  destruct (nm_spec _ H53) as (N1 & N2).
  rewrite f_of_int_small by (rewrite Z.abs_eq; lia). rewrite Z.abs_eq by lia. cbn [bind].
  replace (ibm_M w <? 0) with false by lia.
  rewrite f_div_F24 by (auto; lia). cbn [bind].
  replace (if w0 w <? 128 then 1 else -1) with (if negb (w0 w <? 128) then -1 else 1)
    by (destruct (w0 w <? 128); reflexivity).
  rewrite f_of_int_sign. cbn [bind].
  rewrite f_mul_comm, f_mul_pow2 by (auto; lia). rewrite xorb_false_l.
  unfold EXPONENT_BIAS. rewrite f_mul_pow16_spec by (auto; lia).
  do 2 f_equal. lia.
Qed.

Lemma decoded_wf w : word_ok w -> float_wf (decoded w) /\ finite (decoded w).
Proof.
  intros Hw. pose proof (M_range w Hw) as HM. pose proof (E_range w) as HE. unfold decoded, float_wf.
  destruct (ibm_M w =? 0) eqn:Z0; [split; reflexivity|]. split; [|exact I]. cbn [valid_binary].
  assert (H24 : 1 <= nd (ibm_M w) <= 24) by (apply nd_24; lia).
  apply bounded_normal; [|lia]. apply nm_spec. apply small53; lia.
Qed.

Lemma decoded_units w : word_ok w -> units (decoded w) = ibm_units w.
Proof.
  intros Hw. pose proof (M_range w Hw) as HM. pose proof (E_range w) as HE. unfold decoded.
  rewrite ibm_units_eq. destruct (ibm_M w =? 0) eqn:Z0.
  - cbn. assert (ibm_M w = 0) as -> by lia. lia.
  - cbn [units]. assert (H53 : 0 < ibm_M w < 2 ^ 53) by (apply small53; lia).
    assert (H24 : 1 <= nd (ibm_M w) <= 24) by (apply nd_24; lia).
    destruct (nm_spec _ H53) as (-> & _). unfold ibm_sign.
    rewrite <- Z.mul_assoc, <- Z.pow_add_r by lia.
    replace (53 - nd (ibm_M w) + (nd (ibm_M w) + 4 * ibm_E w - 333 + 1074)) with (4 * ibm_E w + 794) by lia.
    destruct (w0 w <? 128); reflexivity.
Qed.

(* --- encoding --- *)

Notation MAXU := ibm_max (only parsing).

Lemma frexp_spec s m e : bounded 53 1024 m e = true ->
  exists p, f_frexp (S754_finite s m e) = (S754_finite s p (-53), e + nd (Z.pos m)) /\
    Z.pos p = Z.pos m * 2 ^ (53 - nd (Z.pos m)) /\ 2 ^ 52 <= Z.pos p < 2 ^ 53.
Proof.
  intros B. apply bounded_spec in B. unfold f_frexp, SFfrexp.
  assert (H : 0 < Z.pos m < 2 ^ 53) by lia. pose proof (nd_bounds _ H) as (D & L).
  assert (Ed : Z.pos (digits2_pos m) = nd (Z.pos m)) by apply digits_log2.
  destruct (nm_spec _ H) as (N1 & N2).
  destruct (Z.to_pos 53 <=? digits2_pos m)%positive eqn:E.
  - exists m. assert (nd (Z.pos m) = 53).
    { apply Pos.leb_le in E. change (Z.to_pos 53) with 53%positive in E. lia. }
    rewrite H0 in *. split; [reflexivity|]. split; [change (53 - 53) with 0; lia|].
    rewrite N1 in N2. change (53 - 53) with 0 in N2. lia.
  - apply Pos.leb_gt in E. change (Z.to_pos 53) with 53%positive in E.
    assert (nd (Z.pos m) < 53) by lia.
    eexists. split; [rewrite Ed; f_equal; lia|].
    rewrite shift_pos_spec. rewrite Z2Pos.id by lia.
    split; [reflexivity|]. now rewrite <- N1.
Qed.

Lemma encode_core s m e neg : bounded 53 1024 m e = true ->
  let D := Z.pos m * 2 ^ (e + 1074) in D <= MAXU ->
  exists E, 0 <= E < 128 /\ (E = 0 \/ 2 ^ 20 * 2 ^ (4 * E + 794) <= D) /\ D < 2 ^ 24 * 2 ^ (4 * E + 794) /\
    ieee2ibm_core (S754_finite s m e) neg =
    (if D / 2 ^ (4 * E + 794) =? 0 then Err FloatingPointError
     else Ok (mkword neg E (D / 2 ^ (4 * E + 794)))).
Proof.
  intros B D HD. destruct (frexp_spec s m e B) as (p & Ef & Ep & Hp).
  pose proof (proj1 (bounded_spec _ _) B) as Bs.
  assert (H : 0 < Z.pos m < 2 ^ 53) by lia. pose proof (nd_bounds _ H) as (Dd & L1 & L2).
  set (d := nd (Z.pos m)) in *. set (x := e + d) in *.
  (* D in terms of p *)
  assert (DP : D * 2 ^ (53 - d) = Z.pos p * 2 ^ (e + 1074)) by (unfold D; rewrite Ep; ring).
  assert (Dlow : 2 ^ (x + 1073) <= D).
  { unfold D, x. replace (e + d + 1073) with ((d - 1) + (e + 1074)) by lia.
    rewrite Z.pow_add_r by lia. apply Z.mul_le_mono_nonneg_r; lia. }
  assert (Dhigh : D < 2 ^ (x + 1074)).
  { unfold D, x. replace (e + d + 1074) with (d + (e + 1074)) by lia.
    rewrite (Z.pow_add_r 2 d) by lia. apply Z.mul_lt_mono_pos_r; lia. }
  assert (Hx : x <= 252).
  { assert (x + 1073 < 24 + (-24 + 4 * 63 + 1074)); [|lia]. apply (Z.pow_lt_mono_r_iff 2); [lia|lia|].
    eapply Z.le_lt_trans; [exact Dlow|]. eapply Z.le_lt_trans; [exact HD|]. unfold ibm_max.
    rewrite (Z.pow_add_r 2 24) by lia. apply Z.mul_lt_mono_pos_r; lia. }
  unfold ieee2ibm_core. rewrite Ef.
  replace (f_of_int L24) with (Ok (S754_finite false p52 (24 - 52))) by (symmetry; apply (binary_pow2 24); lia).
  cbn [bind]. rewrite f_mul_pow2 by (auto; lia). rewrite xorb_false_r.
  cbn [f_int]. change (0 <=? -53 + 24) with false. change (- (-53 + 24)) with 29. cbv iota. cbn [bind].
  assert (A : Z.abs (if s then - (Z.pos p / 2 ^ 29) else Z.pos p / 2 ^ 29) = Z.pos p / 2 ^ 29).
  { assert (0 <= Z.pos p / 2 ^ 29) by (apply Z.div_pos; lia). destruct s; lia. }
  rewrite A. clear A.
  (* first adjustment *)
  set (sh := (- x) mod 4).
  assert (Hsh : 0 <= sh < 4) by (unfold sh; lia).
  assert (First : (if negb (x mod 4 =? 0)
                   then (Z.shiftr (Z.pos p / 2 ^ 29) (4 - x mod 4), x + (4 - x mod 4))
                   else (Z.pos p / 2 ^ 29, x)) = (Z.pos p / 2 ^ (29 + sh), x + sh)).
  { destruct (x mod 4 =? 0) eqn:R; cbn [negb].
    - assert (sh = 0) as -> by (unfold sh; lia). rewrite !Z.add_0_r. reflexivity.
    - assert (4 - x mod 4 = sh) as -> by (unfold sh; lia).
      rewrite Z.shiftr_div_pow2 by lia. rewrite Z.div_div by lia. now rewrite <- Z.pow_add_r by lia. }
  rewrite First. cbv zeta iota beta.
  rewrite Z.shiftr_div_pow2 by lia. change (2 ^ 2) with 4.
  set (E0 := (x + sh) / 4 + EXPONENT_BIAS).
  assert (HE0 : 4 * E0 = x + sh + 256) by (unfold E0, EXPONENT_BIAS, sh; lia).
  exists (Z.max 0 E0). set (E := Z.max 0 E0).
  assert (HE : 0 <= E < 128) by (unfold E; lia). split; auto.
  set (S := 4 * E - x - 227).
  assert (HS : 29 + sh <= S) by (unfold S, E; lia).
  (* D / 2^(4E+794) = p / 2^S *)
  assert (Q : D / 2 ^ (4 * E + 794) = Z.pos p / 2 ^ S).
  { rewrite <- (Z.div_mul_cancel_r D (2 ^ (4 * E + 794)) (2 ^ (53 - d))) by lia.
    rewrite DP, <- Z.pow_add_r by lia.
    replace (4 * E + 794 + (53 - d)) with (S + (e + 1074)) by (unfold S, x; lia).
    rewrite (Z.pow_add_r 2 S) by lia. apply Z.div_mul_cancel_r; lia. }
  assert (QM : 0 <= Z.pos p / 2 ^ S < 2 ^ 24).
  { clear -HS Hsh Hp. split; [apply Z.div_pos; lia|]. apply Z.div_lt_upper_bound; [lia|]. rewrite <- Z.pow_add_r by lia.
    apply Z.lt_le_trans with (2 ^ 53); [lia|]. apply Z.pow_le_mono_r; lia. }
  assert (Lo : 0 <= E0 -> 2 ^ 20 <= Z.pos p / 2 ^ S).
  { clear -HS Hsh Hp HE0. intros. assert (S <= 32) by (unfold S, E; lia).
    apply Z.div_le_lower_bound; [lia|].
    rewrite <- Z.pow_add_r by lia. apply Z.le_trans with (2 ^ 52); [|lia]. apply Z.pow_le_mono_r; lia. }
  assert (S1 : E0 < 0 -> Z.shiftr (Z.pos p / 2 ^ (29 + sh)) (4 * (0 - E0)) = Z.pos p / 2 ^ S).
  { clear -HS Hsh Hp HE0. intros. assert (SE : 29 + sh + 4 * (0 - E0) = S) by (unfold S, E; lia).
    rewrite Z.shiftr_div_pow2 by lia. rewrite Z.div_div by lia. rewrite <- Z.pow_add_r by lia. now rewrite SE. }
  assert (S2 : 0 <= E0 -> Z.pos p / 2 ^ (29 + sh) = Z.pos p / 2 ^ S).
  { clear -HS Hsh HE0. intros. now replace (29 + sh) with S by (unfold S, E; lia). }
  assert (EE : E0 < 0 /\ E = 0 \/ 0 <= E0 /\ E = E0) by (clear; unfold E; lia).
  rewrite Q. clear Q. set (q := Z.pos p / 2 ^ S) in *. clearbody q.
  assert (Bytes : W (Z.lor (if neg then 128 else 0) E) (Z.land (Z.shiftr q 16) 255)
       (Z.land (Z.shiftr q 8) 255) (Z.land q 255) = mkword neg E q).
  { clear -HE QM. change (2 ^ 24) with 16777216 in QM. unfold mkword. rewrite byte_lor by lia.
    change 255 with (Z.ones 8). rewrite !Z.land_ones by lia. rewrite !Z.shiftr_div_pow2 by lia.
    change (2 ^ 16) with 65536. change (2 ^ 8) with 256. f_equal. lia. }
  clearbody E E0 S sh x. clear -HE HE0 Hsh Dlow Dhigh HS QM Lo S1 S2 EE Bytes.
  split; [|split].
  - destruct EE as [(_ & ->)|(N & EE)]; [now left|]. right.
    rewrite <- Z.pow_add_r by lia. eapply Z.le_trans; [|exact Dlow]. apply Z.pow_le_mono_r; lia.
  - rewrite <- Z.pow_add_r by lia. eapply Z.lt_le_trans; [exact Dhigh|].
    apply Z.pow_le_mono_r; lia.
  - destruct (E0 <? 0) eqn:Neg.
    + rewrite S1 by lia. destruct (q =? 0) eqn:Z0; [reflexivity|]. cbn [bind].
      replace (E0 + (0 - E0)) with E by lia. now rewrite Bytes.
    + cbn [bind]. rewrite S2 by lia. replace E0 with E by lia.
      assert (2 ^ 20 <= q) by (apply Lo; lia). replace (q =? 0) with false by lia. now rewrite Bytes.
Qed.

Definition encodes (neg : bool) (D : Z) (r : res word) : Prop :=
  exists E, 0 <= E < 128 /\ (E = 0 \/ 2 ^ 20 * 2 ^ (4 * E + 794) <= D) /\ D < 2 ^ 24 * 2 ^ (4 * E + 794) /\
    r = (if D / 2 ^ (4 * E + 794) =? 0 then Err FloatingPointError
         else Ok (mkword neg E (D / 2 ^ (4 * E + 794)))).

Lemma MAX_wf : float_wf MAX_IBM_FLOAT /\ float_wf MIN_IBM_FLOAT /\ finite MAX_IBM_FLOAT /\ finite MIN_IBM_FLOAT.
Proof. repeat split; reflexivity. Qed.
Lemma MAX_units : units MAX_IBM_FLOAT = MAXU.
Proof.
  unfold MAX_IBM_FLOAT, units, ibm_max. rewrite Z.mul_1_l.
  change (-24 + 4 * 63 + 1074) with (29 + (199 + 1074)). rewrite (Z.pow_add_r 2 29) by lia.
  rewrite Z.mul_assoc. reflexivity.
Qed.
Lemma MIN_units : units MIN_IBM_FLOAT = - MAXU.
Proof.
  rewrite <- MAX_units. unfold MAX_IBM_FLOAT, MIN_IBM_FLOAT, units. ring.
Qed.

Lemma abs_units s m e : -1074 <= e -> Z.abs (units (S754_finite s m e)) = Z.pos m * 2 ^ (e + 1074).
Proof. intros H. destruct (units_sign s m e H) as (E & P). rewrite E. destruct s; lia. Qed.

Lemma units_nonzero s m e : -1074 <= e -> units (S754_finite s m e) <> 0.
Proof. intros H. destruct (units_sign s m e H) as (E & P). rewrite E. destruct s; lia. Qed.

Lemma zero_wf s : float_wf (S754_zero s) /\ finite (S754_zero s).
Proof. split; [reflexivity|exact I]. Qed.

Lemma ieee2ibm_zero f : finite f -> float_wf f -> units f = 0 -> ieee2ibm f = Ok IBM_ZERO.
Proof.
  intros F Wf U. unfold ieee2ibm. destruct (zero_wf false).
  rewrite f_eq_units by auto. change (units (S754_zero false)) with 0. rewrite U. reflexivity.
Qed.

Lemma ieee2ibm_special f : ~ finite f -> ieee2ibm f = Err ValueError.
Proof. destruct f as [s|s| |s m e]; cbn [finite]; try tauto; intros _; try (destruct s); reflexivity. Qed.

Lemma ieee2ibm_over f : finite f -> float_wf f -> MAXU < Z.abs (units f) -> ieee2ibm f = Err OverflowError.
Proof.
  intros F Wf U. assert (P : 0 < MAXU) by (unfold ibm_max; lia).
  destruct MAX_wf as (? & ? & ? & ?). destruct (zero_wf false).
  unfold ieee2ibm. rewrite f_eq_units, !f_lt_units by auto. change (units (S754_zero false)) with 0.
  rewrite MAX_units, MIN_units.
  replace (units f =? 0) with false by lia.
  destruct f; cbn [finite f_isnan f_isinf] in *; try contradiction;
    (destruct (_ <? - MAXU) eqn:A; [reflexivity|]; now replace (MAXU <? _) with true by lia).
Qed.

Lemma ieee2ibm_encodes f : finite f -> float_wf f -> units f <> 0 -> Z.abs (units f) <= MAXU ->
  encodes (units f <? 0) (Z.abs (units f)) (ieee2ibm f).
Proof.
  intros F Wf N U. destruct MAX_wf as (? & ? & ? & ?). destruct (zero_wf false).
  unfold ieee2ibm. rewrite f_eq_units, !f_lt_units by auto. change (units (S754_zero false)) with 0.
  rewrite MAX_units, MIN_units.
  replace (units f =? 0) with false by lia.
  replace (units f <? - MAXU) with false by lia. replace (MAXU <? units f) with false by lia.
  destruct f as [s|s| |s m e]; cbn [finite f_isnan f_isinf] in *; try contradiction.
  - assert (B : bounded 53 1024 m e = true) by exact Wf. pose proof (proj1 (bounded_spec _ _) B).
    rewrite abs_units in * by lia. apply (encode_core s m e _ B U).
Qed.

(* --- truncation --- *)

Lemma mkword_units s E M : 0 <= E < 128 -> 0 <= M < 2 ^ 24 ->
  ibm_units (mkword s E M) = (if s then -1 else 1) * (M * 2 ^ (4 * E + 794)).
Proof. intros. rewrite ibm_units_eq, mkword_sign, mkword_E, mkword_M by auto. reflexivity. Qed.

Lemma abs_ibm_units w : word_ok w -> Z.abs (ibm_units w) = ibm_M w * 2 ^ (4 * ibm_E w + 794).
Proof.
  intros H. rewrite ibm_units_eq. pose proof (M_range w H). pose proof (E_range w).
  assert (0 <= ibm_M w * 2 ^ (4 * ibm_E w + 794)) by (apply Z.mul_nonneg_nonneg; lia).
  unfold ibm_sign. destruct (w0 w <? 128); lia.
Qed.

Lemma div_range D q k : 0 <= D -> D < k * 2 ^ q -> 0 <= q -> 0 <= D / 2 ^ q < k.
Proof.
  intros. split; [apply Z.div_pos; lia|]. apply Z.div_lt_upper_bound; lia.
Qed.

Lemma truncated_best E D : 0 <= E < 128 -> 0 <= D -> (E = 0 \/ 2 ^ 20 * 2 ^ (4 * E + 794) <= D) ->
  forall w', word_ok w' -> Z.abs (ibm_units w') <= D ->
  Z.abs (ibm_units w') <= D / 2 ^ (4 * E + 794) * 2 ^ (4 * E + 794).
Proof.
  intros HE HD C w' Hw'. rewrite abs_ibm_units by auto.
  pose proof (M_range w' Hw') as HM. pose proof (E_range w') as HE'. intros Hle.
  set (q := 4 * E + 794) in *. set (q' := 4 * ibm_E w' + 794) in *. assert (P : 0 < 2 ^ q) by (unfold q; lia).
  destruct (Z.le_gt_cases E (ibm_E w')) as [G|G].
  - replace q' with ((q' - q) + q) in * by lia. rewrite Z.pow_add_r in * by (unfold q, q'; lia).
    rewrite Z.mul_assoc in *. apply Z.mul_le_mono_nonneg_r; [lia|].
    apply Z.div_le_lower_bound; [lia|]. lia.
  - destruct C as [C|C]; [lia|].
    assert (Q : 2 ^ 20 <= D / 2 ^ q) by (apply Z.div_le_lower_bound; lia).
    assert (R : ibm_M w' * 2 ^ q' < 2 ^ 24 * 2 ^ q') by (apply Z.mul_lt_mono_pos_r; unfold q'; lia).
    assert (R' : 2 ^ 24 * 2 ^ q' <= 2 ^ 20 * 2 ^ q).
    { rewrite <- !Z.pow_add_r by (unfold q, q'; lia). apply Z.pow_le_mono_r; unfold q, q'; lia. }
    assert (R'' : 2 ^ 20 * 2 ^ q <= D / 2 ^ q * 2 ^ q) by (apply Z.mul_le_mono_nonneg_r; lia). lia.
Qed.

Lemma encode_ok f w : float_wf f -> ieee2ibm f = Ok w ->
  finite f /\ Z.abs (units f) <= MAXU /\ truncation (units f) w /\
  (units f <> 0 -> ibm_units w <> 0) /\
  (ibm_min_normal <= Z.abs (units f) -> (Z.abs (units f) - Z.abs (ibm_units w)) * 2 ^ 20 < Z.abs (units f)).
Proof.
  intros Wf H.
  assert (F : finite f).
  { destruct f; cbn [finite]; auto; (rewrite ieee2ibm_special in H by tauto; discriminate). }
  split; auto.
  assert (U : Z.abs (units f) <= MAXU).
  { apply Z.nlt_ge. intros C. rewrite ieee2ibm_over in H by auto. discriminate. }
  split; auto. destruct (Z.eq_dec (units f) 0) as [Z0|N].
  { rewrite ieee2ibm_zero in H by auto. assert (w = IBM_ZERO) by congruence. subst w. rewrite Z0.
    change (Z.abs 0) with 0. assert (UZ : ibm_units IBM_ZERO = 0) by reflexivity.
    unfold truncation. rewrite UZ. change (Z.abs 0) with 0. split; [|split; [lia|]].
    - split; [unfold word_ok; cbn; lia|]. repeat (split; [lia|]). auto.
    - intros C. exfalso. unfold ibm_min_normal in C. assert (0 < 2 ^ (-4 * 65 + 1074)) by lia. lia. }
  destruct (ieee2ibm_encodes f F Wf N U) as (E & HE & C1 & C2 & R).
  rewrite H in R. set (D := Z.abs (units f)) in *. set (q := 4 * E + 794) in *.
  assert (HD : 0 <= D) by (unfold D; lia).
  pose proof (div_range D q (2 ^ 24) HD C2 ltac:(lia)) as HM.
  destruct (D / 2 ^ q =? 0) eqn:Z0; [discriminate|]. injection R as ->.
  assert (P : 0 < 2 ^ q) by (unfold q; lia).
  assert (V : Z.abs (ibm_units (mkword (units f <? 0) E (D / 2 ^ q))) = D / 2 ^ q * 2 ^ q).
  { rewrite abs_ibm_units by (apply mkword_ok; auto; lia). rewrite mkword_M, mkword_E by (auto; lia). reflexivity. }
  pose proof (Z.mul_div_le D (2 ^ q) P) as L1. pose proof (Z.mul_succ_div_gt D (2 ^ q) P) as L2.
  rewrite Z.mul_succ_r in L2.
  assert (PQ : 0 < D / 2 ^ q * 2 ^ q) by (apply Z.mul_pos_pos; lia).
  pose proof (mkword_units (units f <? 0) E (D / 2 ^ q) HE HM) as VU. fold q in VU.
  split; [|split].
  - split; [apply mkword_ok; auto; lia|]. rewrite V.
    split; [|split; [|split]].
    + intros. rewrite VU. replace (units f <? 0) with false by lia. lia.
    + intros. rewrite VU. replace (units f <? 0) with true by lia. lia.
    + lia.
    + intros w' Hw' Hle. apply truncated_best; auto.
  - lia.
  - intros C. rewrite V. assert (2 ^ 20 * 2 ^ q <= D); [|lia].
    destruct C1 as [->|C1]; [|exact C1]. unfold q. rewrite <- Z.pow_add_r by lia. exact C.
Qed.

Lemma encode_errors f : float_wf f ->
  (ieee2ibm f = Err ValueError <-> ~ finite f) /\
  (ieee2ibm f = Err OverflowError <-> finite f /\ ibm_max < Z.abs (units f)) /\
  (ieee2ibm f = Err FloatingPointError <-> finite f /\ 0 < Z.abs (units f) < ibm_min) /\
  (forall e, ieee2ibm f = Err e -> e = ValueError \/ e = OverflowError \/ e = FloatingPointError).
Proof.
  intros Wf. assert (Dec : finite f \/ ~ finite f) by (destruct f; cbn; tauto).
  assert (MM : ibm_min < ibm_max).
  { unfold ibm_min, ibm_max. change (-4 * 70 + 1074) with 794. change (-24 + 4 * 63 + 1074) with (508 + 794).
    rewrite (Z.pow_add_r 2 508) by lia. rewrite Z.mul_assoc.
    rewrite <- (Z.mul_1_l (2 ^ 794)) at 1. apply Z.mul_lt_mono_pos_r; [lia|]. vm_compute. reflexivity. }
  destruct Dec as [F|F].
  2: { rewrite ieee2ibm_special by auto. split; [tauto|].
       split; [split; [discriminate|tauto]|]. split; [split; [discriminate|tauto]|].
       intros e [= <-]. auto. }
  destruct (Z.lt_ge_cases MAXU (Z.abs (units f))) as [O|O].
  { rewrite ieee2ibm_over by auto.
    split; [split; [discriminate|tauto]|]. split; [tauto|].
    split; [split; [discriminate|]; intros; lia|]. intros e [= <-]. auto. }
  destruct (Z.eq_dec (units f) 0) as [Z0|N].
  { rewrite ieee2ibm_zero by auto. rewrite Z0. change (Z.abs 0) with 0.
    split; [split; [discriminate|tauto]|].
    split; [split; [discriminate|intros; unfold ibm_max in *; lia]|].
    split; [split; [discriminate|intros; lia]|]. discriminate. }
  destruct (ieee2ibm_encodes f F Wf N O) as (E & HE & C1 & C2 & R). rewrite R.
  set (D := Z.abs (units f)) in *. set (q := 4 * E + 794) in *.
  assert (P : 0 < 2 ^ q) by (unfold q; lia).
  assert (PD : 0 < D) by lia.
  assert (K : D / 2 ^ q = 0 <-> D < ibm_min).
  { unfold ibm_min. change (-4 * 70 + 1074) with 794. destruct C1 as [->|C1].
    - change q with 794. rewrite Z.div_small_iff by lia. lia.
    - assert (2 ^ 20 <= D / 2 ^ q) by (apply Z.div_le_lower_bound; lia).
      assert (2 ^ 794 <= 2 ^ q) by (apply Z.pow_le_mono_r; unfold q; lia).
      assert (1 * 2 ^ q <= 2 ^ 20 * 2 ^ q) by (apply Z.mul_le_mono_nonneg_r; lia).
      split; [lia|]. lia. }
  destruct (D / 2 ^ q =? 0) eqn:Z0.
  - split; [split; [discriminate|tauto]|]. split; [split; [discriminate|lia]|].
    split; [split; auto; intros _; split; auto; lia|]. intros e [= <-]. auto.
  - split; [split; [discriminate|tauto]|]. split; [split; [discriminate|lia]|].
    split; [split; [discriminate|intros; lia]|]. discriminate.
Qed.

(* --- normal forms --- *)

Definition nf (w : word) : Prop := w = IBM_ZERO \/ (ibm_M w <> 0 /\ (ibm_E w = 0 \/ 2 ^ 20 <= ibm_M w)).

Lemma canonical_nf w : canonical w -> nf w.
Proof. intros [H|H]; [now left|right]. change (2 ^ 20) with 1048576 in *. lia. Qed.

Lemma pow16 k : 0 <= k -> 16 ^ k = 2 ^ (4 * k).
Proof. intros. change 16 with (2 ^ 4). now rewrite <- Z.pow_mul_r by lia. Qed.

Lemma units_sign_of w : word_ok w -> ibm_M w <> 0 ->
  (w0 w <? 128) = (0 <? ibm_units w).
Proof.
  intros Hw N. pose proof (M_range w Hw). pose proof (E_range w).
  assert (0 < ibm_M w * 2 ^ (4 * ibm_E w + 794)) by (apply Z.mul_pos_pos; lia).
  rewrite ibm_units_eq. unfold ibm_sign. destruct (w0 w <? 128); lia.
Qed.

Lemma nf_E_le M E M' E' : 0 <= E < 128 -> 0 <= E' < 128 -> 0 <= M < 2 ^ 24 ->
  (E' = 0 \/ 2 ^ 20 <= M') -> M * 2 ^ (4 * E + 794) = M' * 2 ^ (4 * E' + 794) -> E' <= E.
Proof.
  intros HE HE' HM C V. apply Z.nlt_ge. intros L. destruct C as [C|C]; [lia|].
  assert (P : 0 < 2 ^ (4 * E + 794)) by lia.
  assert (A : M * 2 ^ (4 * E + 794) < 2 ^ 24 * 2 ^ (4 * E + 794)) by (apply Z.mul_lt_mono_pos_r; lia).
  assert (B : 2 ^ 20 * 2 ^ (4 * E' + 794) <= M' * 2 ^ (4 * E' + 794)) by (apply Z.mul_le_mono_nonneg_r; lia).
  assert (B' : 2 ^ 24 * 2 ^ (4 * E + 794) <= 2 ^ 20 * 2 ^ (4 * E' + 794)).
  { rewrite <- !Z.pow_add_r by lia. apply Z.pow_le_mono_r; lia. }
  lia.
Qed.

Lemma nf_unique x y : word_ok x -> word_ok y -> nf x -> nf y -> ibm_units x = ibm_units y -> x = y.
Proof.
  intros Hx Hy Nx Ny U.
  pose proof (ibm_units_zero x Hx) as Zx. pose proof (ibm_units_zero y Hy) as Zy.
  destruct Nx as [->|(Mx & Nx)].
  { destruct Ny as [->|(My & Ny)]; auto. exfalso. apply My, Zy. rewrite <- U. reflexivity. }
  destruct Ny as [->|(My & Ny)].
  { exfalso. apply Mx, Zx. rewrite U. reflexivity. }
  assert (V : ibm_M x * 2 ^ (4 * ibm_E x + 794) = ibm_M y * 2 ^ (4 * ibm_E y + 794)).
  { rewrite <- !abs_ibm_units by auto. now rewrite U. }
  pose proof (M_range x Hx). pose proof (M_range y Hy). pose proof (E_range x). pose proof (E_range y).
  assert (EE : ibm_E x = ibm_E y).
  { symmetry in V. pose proof (nf_E_le _ _ _ _ H2 H1 H0 Nx V). symmetry in V. pose proof (nf_E_le _ _ _ _ H1 H2 H Ny V). lia. }
  rewrite EE in V. apply Z.mul_cancel_r in V; [|lia].
  rewrite (word_mkword x Hx), (word_mkword y Hy), EE, V.
  rewrite !units_sign_of by auto. now rewrite U.
Qed.

Lemma encodes_word neg M E r : 0 < M < 2 ^ 24 -> 0 <= E < 128 -> encodes neg (M * 2 ^ (4 * E + 794)) r ->
  exists w, r = Ok w /\ word_ok w /\ nf w /\ ibm_units w = (if neg then -1 else 1) * (M * 2 ^ (4 * E + 794)).
Proof.
  intros HM HE (E' & HE' & C1 & C2 & ->).
  assert (L : E' <= E).
  { apply Z.nlt_ge. intros L. destruct C1 as [C1|C1]; [lia|].
    assert (P : 0 < 2 ^ (4 * E + 794)) by lia.
    assert (A : M * 2 ^ (4 * E + 794) < 2 ^ 24 * 2 ^ (4 * E + 794)) by (apply Z.mul_lt_mono_pos_r; lia).
    assert (B' : 2 ^ 24 * 2 ^ (4 * E + 794) <= 2 ^ 20 * 2 ^ (4 * E' + 794)).
    { rewrite <- !Z.pow_add_r by lia. apply Z.pow_le_mono_r; lia. }
    lia. }
  replace (4 * E + 794) with (4 * (E - E') + (4 * E' + 794)) in * by lia.
  rewrite (Z.pow_add_r 2 (4 * (E - E'))), Z.mul_assoc in * by lia.
  set (M' := M * 2 ^ (4 * (E - E'))) in *.
  assert (P : 0 < 2 ^ (4 * E' + 794)) by lia.
  assert (P' : 0 < M') by (apply Z.mul_pos_pos; lia).
  assert (M' < 2 ^ 24) by (apply Z.mul_lt_mono_pos_r in C2; auto).
  rewrite Z.div_mul by lia. replace (M' =? 0) with false by lia.
  eexists. split; [reflexivity|]. split; [apply mkword_ok; lia|].
  split.
  - right. rewrite mkword_M, mkword_E by lia. split; [lia|]. destruct C1 as [C1|C1]; [now left|right].
    apply Z.mul_le_mono_pos_r in C1; auto.
  - apply mkword_units; lia.
Qed.

Lemma ibm_max_bound w : word_ok w -> Z.abs (ibm_units w) <= ibm_max.
Proof.
  intros Hw. rewrite abs_ibm_units by auto. pose proof (M_range w Hw). pose proof (E_range w).
  unfold ibm_max. apply Z.mul_le_mono_nonneg; [lia|lia|lia|]. apply Z.pow_le_mono_r; lia.
Qed.

(* re-encoding a decoded word *)
Lemma reencode w : word_ok w -> exists w', ieee2ibm (decoded w) = Ok w' /\
  word_ok w' /\ nf w' /\ ibm_units w' = ibm_units w.
Proof.
  intros Hw. destruct (decoded_wf w Hw) as (Wf & F).
  pose proof (ibm_units_zero w Hw) as ZZ.
  destruct (Z.eq_dec (ibm_M w) 0) as [Z0|N].
  - rewrite ieee2ibm_zero; auto.
    + exists IBM_ZERO. split; auto. split; [unfold word_ok; cbn; lia|]. split; [now left|].
      rewrite (proj2 ZZ Z0). reflexivity.
    + rewrite decoded_units by auto. tauto.
  - pose proof (ibm_max_bound w Hw) as MX. rewrite <- decoded_units in MX by auto.
    assert (N' : units (decoded w) <> 0) by (rewrite decoded_units by auto; tauto).
    pose proof (ieee2ibm_encodes _ F Wf N' MX) as En.
    rewrite decoded_units in En by auto. rewrite abs_ibm_units in En by auto.
    pose proof (M_range w Hw). pose proof (E_range w).
    destruct (encodes_word _ (ibm_M w) (ibm_E w) _ ltac:(lia) ltac:(lia) En) as (w' & R & Ok' & NF & U).
    exists w'. split; auto. split; auto. split; auto. rewrite U.
    assert (0 < ibm_M w * 2 ^ (4 * ibm_E w + 794)) by (apply Z.mul_pos_pos; lia).
    pose proof (units_sign_of w Hw N) as S. pose proof (ibm_units_eq w) as EQ.
    unfold ibm_sign in EQ. rewrite S in EQ.
    destruct (ibm_units w <? 0) eqn:S1, (0 <? ibm_units w) eqn:S2; lia.
Qed.

Lemma reencode_nf w : word_ok w -> nf w -> ieee2ibm (decoded w) = Ok w.
Proof.
  intros Hw N. destruct (reencode w Hw) as (w' & R & Ok' & N' & U).
  now rewrite (nf_unique _ _ Ok' Hw N' N U) in R.
Qed.

Lemma decoded_eq x y : word_ok x -> word_ok y -> ibm_units x = ibm_units y -> decoded x = decoded y.
Proof.
  intros Hx Hy U. destruct (decoded_wf x Hx) as (Wx & _). destruct (decoded_wf y Hy) as (Wy & _).
  pose proof (decoded_units x Hx) as Ux. pose proof (decoded_units y Hy) as Uy.
  rewrite <- U, <- Ux in Uy. revert Wx Wy Uy.
  pose proof (ibm_units_zero x Hx) as Zx. pose proof (ibm_units_zero y Hy) as Zy. rewrite U in Zx.
  unfold decoded. destruct (ibm_M x =? 0) eqn:A, (ibm_M y =? 0) eqn:B; auto.
  - intros. exfalso. lia.
  - intros. exfalso. lia.
  - intros Wx Wy Uy. apply units_inj; auto.
Qed.

(* --- normalize --- *)

Lemma normalize_loop_spec n : forall e m, 0 < m < 2 ^ 24 -> 2 ^ 20 <= m * 16 ^ Z.of_nat n -> -64 <= e < 64 ->
  (exists k, 0 <= k /\ -64 <= e - k /\ 2 ^ 20 <= m * 16 ^ k < 2 ^ 24 /\
     normalize_loop n e m = Ok (e - k, m * 16 ^ k)) \/
  (normalize_loop n e m = Err FloatingPointError /\ m * 16 ^ (e + 64) < 2 ^ 20).
Proof.
  change (2 ^ 24) with 16777216. change (2 ^ 20) with 1048576.
  induction n as [|n IH]; intros e m Hm Hn He.
  - cbn in Hn. left. exists 0. cbn [normalize_loop]. change (Z.shiftl 1 20) with 1048576.
    replace (m <? 1048576) with false by lia. cbn. repeat split; try lia. do 2 f_equal; lia.
  - cbn [normalize_loop]. change (Z.shiftl 1 20) with 1048576. destruct (m <? 1048576) eqn:L.
    2: { left. exists 0. cbn. repeat split; try lia. do 2 f_equal; lia. }
    destruct (negb ((-64 <=? e - 1) && (e - 1 <? 64))) eqn:B.
    + right. split; auto. assert (e = -64) as -> by lia. cbn. lia.
    + rewrite Z.shiftl_mul_pow2 by lia. change (2 ^ 4) with 16.
      assert (Hn' : m * 16 ^ Z.of_nat (Datatypes.S n) = m * 16 * 16 ^ Z.of_nat n).
      { rewrite Nat2Z.inj_succ, Z.pow_succ_r by lia. ring. }
      destruct (IH (e - 1) (m * 16) ltac:(lia) ltac:(lia) ltac:(lia)) as [(k & K1 & K2 & K3 & K4)|(K1 & K2)].
      * left. exists (k + 1). replace (k + 1) with (Z.succ k) by lia. rewrite Z.pow_succ_r by lia.
        rewrite K4. rewrite Z.mul_assoc. repeat split; try lia. do 2 f_equal; lia.
      * right. split; auto. replace (e + 64) with (Z.succ (e - 1 + 64)) by lia. rewrite Z.pow_succ_r by lia. lia.
Qed.


Lemma tiny_spec w : word_ok w -> tiny w <-> ibm_M w <> 0 /\ ibm_M w * 16 ^ ibm_E w < 2 ^ 20.
Proof.
  intros Hw. pose proof (M_range w Hw). pose proof (E_range w). unfold tiny.
  rewrite abs_ibm_units by auto. unfold ibm_min_normal. change (-4 * 65 + 1074) with (20 + 794).
  rewrite !(Z.pow_add_r 2 _ 794), Z.mul_assoc, pow16 by lia.
  rewrite <- Z.mul_lt_mono_pos_r by lia.
  assert (0 < ibm_M w * 2 ^ (4 * ibm_E w) * 2 ^ 794 <-> ibm_M w <> 0); [|tauto].
  assert (P : 0 < 2 ^ (4 * ibm_E w)) by lia. assert (P' : 0 < 2 ^ 794) by lia. split.
  - intros A C. rewrite C in A. lia.
  - intros. apply Z.mul_pos_pos; [apply Z.mul_pos_pos; lia|lia].
Qed.

Lemma ibm_new_ok a b c d : word_ok (W a b c d) -> ibm_new [a; b; c; d] = Ok (W a b c d).
Proof.
  unfold word_ok; cbn [w0 w1 w2 w3]. intros H. unfold ibm_new. cbn [forallb]. unfold is_byte.
  replace (0 <=? a) with true by lia. replace (a <? 256) with true by lia.
  replace (0 <=? b) with true by lia. replace (b <? 256) with true by lia.
  replace (0 <=? c) with true by lia. replace (c <? 256) with true by lia.
  replace (0 <=? d) with true by lia. replace (d <? 256) with true by lia. reflexivity.
Qed.

Lemma normalize_spec w : word_ok w ->
  (normalize w = Err FloatingPointError /\ tiny w) \/
  (exists w', normalize w = Ok w' /\ ~ tiny w /\ word_ok w' /\ canonical w' /\ ibm_units w' = ibm_units w /\
     (ibm_M w <> 0 -> (w0 w' <? 128) = (w0 w <? 128))).
Proof.
  intros Hw. pose proof (M_range w Hw) as HM. pose proof (E_range w) as HE.
  unfold normalize. rewrite is_zero_spec, int_mantissa_spec, exp16_spec, signbit_spec by auto.
  destruct (ibm_M w =? 0) eqn:Z0.
  - right. exists IBM_ZERO. split; auto.
    split; [rewrite tiny_spec by auto; lia|]. split; [unfold word_ok; cbn; lia|]. split; [now left|].
    split; [|intros; lia]. rewrite (proj2 (ibm_units_zero w Hw)); [reflexivity|lia].
  - destruct (normalize_loop_spec 6 (ibm_E w - 64) (ibm_M w)) as [(k & K1 & K2 & K3 & K4)|(K1 & K2)];
      [lia| |lia| |].
    + change (2 ^ 20) with 1048576. change (16 ^ Z.of_nat 6) with 16777216. lia.
    + right. rewrite K4. cbn [bind]. unfold EXPONENT_BIAS.
      replace (ibm_E w - 64 - k + 64) with (ibm_E w - k) by lia.
      set (M' := ibm_M w * 16 ^ k) in *.
      assert (Bytes : [Z.lor (Z.shiftl (if negb (w0 w <? 128) then 1 else 0) 7) (ibm_E w - k);
        Z.land (Z.shiftr M' 16) 255; Z.land (Z.shiftr M' 8) 255; Z.land M' 255] =
        ibm_bytes (mkword (negb (w0 w <? 128)) (ibm_E w - k) M')).
      { assert (HM' : 0 <= M' < 16777216) by (change 16777216 with (2 ^ 24); lia).
        replace (Z.shiftl (if negb (w0 w <? 128) then 1 else 0) 7) with (if negb (w0 w <? 128) then 128 else 0)
          by (destruct (w0 w <? 128); reflexivity).
        rewrite byte_lor by lia. unfold ibm_bytes, mkword; cbn [w0 w1 w2 w3].
        change 255 with (Z.ones 8). rewrite !Z.land_ones by lia. rewrite !Z.shiftr_div_pow2 by lia.
        change (2 ^ 16) with 65536. change (2 ^ 8) with 256. rewrite (Z.mod_small (M' / 65536)) by lia. reflexivity. }
      rewrite Bytes. exists (mkword (negb (w0 w <? 128)) (ibm_E w - k) M').
      assert (Okw : word_ok (mkword (negb (w0 w <? 128)) (ibm_E w - k) M')) by (apply mkword_ok; lia).
      split; [apply ibm_new_ok; exact Okw|].
      assert (VV : ibm_M w * 2 ^ (4 * ibm_E w + 794) = M' * 2 ^ (4 * (ibm_E w - k) + 794)).
      { unfold M'. rewrite pow16, <- Z.mul_assoc, <- Z.pow_add_r by lia. do 2 f_equal. lia. }
      split.
      { rewrite tiny_spec by auto. intros (_ & T). revert T. apply Z.le_ngt.
        apply Z.le_trans with M'; [lia|]. apply Z.mul_le_mono_nonneg_l; [lia|]. apply Z.pow_le_mono_r; lia. }
      split; auto. split; [right; rewrite mkword_M by lia; lia|]. split.
      * rewrite mkword_units by lia. rewrite ibm_units_eq, VV. unfold ibm_sign. destruct (w0 w <? 128); reflexivity.
      * intros _. unfold mkword; cbn [w0]. destruct (w0 w <? 128) eqn:S; cbn [negb]; lia.
    + left. rewrite K1. split; auto. apply tiny_spec; auto. split; [lia|].
      now replace (ibm_E w - 64 + 64) with (ibm_E w) in K2 by lia.
Qed.

Lemma canonical_not_tiny w : word_ok w -> canonical w -> ~ tiny w.
Proof.
  intros Hw C. rewrite tiny_spec by auto. pose proof (M_range w Hw). pose proof (E_range w).
  destruct C as [->|C]; [cbn; lia|]. intros (_ & T). revert T. apply Z.le_ngt.
  apply Z.le_trans with (ibm_M w * 1); [lia|]. apply Z.mul_le_mono_nonneg_l; [lia|].
  assert (0 < 16 ^ ibm_E w) by (apply Z.pow_pos_nonneg; lia). lia.
Qed.

Lemma normalize_canonical w : word_ok w -> canonical w -> normalize w = Ok w.
Proof.
  intros Hw C. destruct (normalize_spec w Hw) as [(_ & T)|(w' & N & _ & Hw' & C' & U & _)].
  - now apply canonical_not_tiny in T.
  - rewrite N. f_equal. apply nf_unique; auto using canonical_nf.
Qed.

Lemma try_normalize_spec w : word_ok w -> exists w', try_normalize w = Ok w' /\ word_ok w' /\
  ibm_units w' = ibm_units w /\ try_normalize w' = Ok w' /\
  (tiny w -> w' = w) /\ (~ tiny w -> canonical w').
Proof.
  intros Hw. unfold try_normalize at 1. destruct (normalize_spec w Hw) as [(N & T)|(w' & N & T & Hw' & C & U & _)]; rewrite N.
  - exists w. split; auto. split; auto. split; auto. split; [unfold try_normalize; now rewrite N|]. tauto.
  - exists w'. split; auto. split; auto. split; auto.
    split; [unfold try_normalize; now rewrite normalize_canonical by auto|]. tauto.
Qed.

Lemma reencode_try w : word_ok w -> ~ tiny w \/ ibm_E w = 0 ->
  try_normalize w = ieee2ibm (decoded w).
Proof.
  intros Hw H. destruct (reencode w Hw) as (w' & R & Ok' & N' & U).
  destruct (try_normalize_spec w Hw) as (w2 & R2 & Ok2 & U2 & _ & T1 & T2).
  rewrite R, R2. f_equal. apply nf_unique; auto; [|congruence].
  destruct H as [H|H]; [apply canonical_nf; auto|].
  destruct (normalize_spec w Hw) as [(_ & T)|(_ & _ & T & _)].
  - rewrite (T1 T). right. apply tiny_spec in T; auto. tauto.
  - apply canonical_nf; auto.
Qed.

(* --- monotone and odd --- *)

Lemma truncation_mono a b v w : truncation a v -> truncation b w -> a <= b -> ibm_units v <= ibm_units w.
Proof.
  intros (Ov & Pv & Nv & Lv & Bv) (Ow & Pw & Nw & Lw & Bw) H.
  destruct (Z.le_ge_cases 0 a).
  - specialize (Bw v Ov ltac:(lia)). specialize (Pw ltac:(lia)). specialize (Pv ltac:(lia)). lia.
  - specialize (Nv ltac:(lia)). destruct (Z.le_ge_cases b 0).
    + specialize (Bv w Ow ltac:(lia)). specialize (Nw ltac:(lia)). lia.
    + specialize (Pw ltac:(lia)). lia.
Qed.

Lemma encode_nf f w : float_wf f -> ieee2ibm f = Ok w -> nf w /\ word_ok w.
Proof.
  intros Wf H. destruct (encode_ok f w Wf H) as (F & U & (Ow & _) & _). split; auto.
  destruct (Z.eq_dec (units f) 0) as [Z0|N].
  - rewrite ieee2ibm_zero in H by auto. left. congruence.
  - destruct (ieee2ibm_encodes f F Wf N U) as (E & HE & C1 & C2 & R). rewrite H in R.
    set (q := 4 * E + 794) in *.
    destruct (_ =? 0) eqn:Z0 in R; [discriminate|]. injection R as ->. right.
    pose proof (div_range (Z.abs (units f)) q (2 ^ 24) ltac:(lia) C2 ltac:(lia)).
    rewrite mkword_M, mkword_E by lia. split; [lia|]. destruct C1 as [C1|C1]; [now left|right].
    apply Z.div_le_lower_bound; [lia|]. rewrite Z.mul_comm. exact C1.
Qed.

Lemma opp_wf f : float_wf f -> float_wf (SFopp f).
Proof. destruct f; auto. Qed.
Lemma opp_finite f : finite f -> finite (SFopp f).
Proof. destruct f; auto. Qed.
Lemma opp_units f : units (SFopp f) = - units f.
Proof. destruct f as [s|s| |s m e]; cbn; try reflexivity. destruct s; cbn [negb]; lia. Qed.

(* --- negation and absolute value --- *)

Lemma neg_spec w : word_ok w -> word_ok (ibm_neg w) /\ ibm_units (ibm_neg w) = - ibm_units w /\
  (ibm_M w <> 0 -> ibm_neg (ibm_neg w) = w).
Proof.
  intros Hw. unfold ibm_neg. rewrite is_zero_spec by auto. destruct (ibm_M w =? 0) eqn:Z0.
  - rewrite (proj2 (ibm_units_zero w Hw)) by lia. split; [unfold word_ok; cbn; lia|]. split; [reflexivity|lia].
  - unfold word_ok in Hw. destruct w as [a b c d]; cbn [w0 w1 w2 w3] in *.
    rewrite byte_lxor by lia. set (a' := if a <? 128 then a + 128 else a - 128).
    assert (Ha' : a < 128 /\ a' = a + 128 \/ 128 <= a /\ a' = a - 128) by (unfold a'; destruct (a <? 128) eqn:L; lia).
    clearbody a'.
    assert (Ow : word_ok (W a' b c d)) by (unfold word_ok; cbn [w0 w1 w2 w3]; lia).
    split; auto. split.
    + unfold ibm_units, ibm_sign, ibm_E, ibm_M; cbn [w0 w1 w2 w3].
      replace (a' mod 128) with (a mod 128) by lia.
      replace (a' <? 128) with (negb (a <? 128)) by lia. destruct (a <? 128); cbn [negb]; lia.
    + intros _. rewrite is_zero_spec by auto. unfold ibm_M in *. cbn [w0 w1 w2 w3] in *. rewrite Z0.
      f_equal. rewrite byte_lxor by lia. destruct (a' <? 128) eqn:L; lia.
Qed.

Lemma abs_spec w : word_ok w -> word_ok (ibm_abs w) /\ ibm_units (ibm_abs w) = Z.abs (ibm_units w) /\
  w0 (ibm_abs w) < 128.
Proof.
  intros Hw. unfold ibm_abs. rewrite is_zero_spec by auto. destruct (ibm_M w =? 0) eqn:Z0.
  - rewrite (proj2 (ibm_units_zero w Hw)) by lia. split; [unfold word_ok; cbn; lia|]. split; [reflexivity|cbn; lia].
  - rewrite abs_ibm_units by auto. unfold word_ok in Hw. destruct w as [a b c d]; cbn [w0 w1 w2 w3] in *.
    rewrite byte_land127 by lia. split; [unfold word_ok; cbn [w0 w1 w2 w3]; lia|]. split; [|lia].
    rewrite ibm_units_eq. unfold ibm_units, ibm_sign, ibm_E, ibm_M; cbn [w0 w1 w2 w3].
    replace (a mod 128 mod 128) with (a mod 128) by lia. replace (a mod 128 <? 128) with true by lia. lia.
Qed.

Lemma encode_odd f w : float_wf f -> ieee2ibm f = Ok w -> units f <> 0 ->
  ieee2ibm (SFopp f) = Ok (W (if w0 w <? 128 then w0 w + 128 else w0 w - 128) (w1 w) (w2 w) (w3 w)).
Proof.
  intros Wf H N. destruct (encode_ok f w Wf H) as (F & U & (Ow & _) & NZ & _).
  assert (E : ieee2ibm (SFopp f) = Ok (ibm_neg w)).
  { pose proof (ieee2ibm_encodes f F Wf N U) as En.
    assert (En' : encodes (units (SFopp f) <? 0) (Z.abs (units (SFopp f))) (ieee2ibm (SFopp f))).
    { apply ieee2ibm_encodes; auto using opp_wf, opp_finite; rewrite opp_units; lia. }
    rewrite opp_units, Z.abs_opp in En'.
    destruct En as (E & HE & C1 & C2 & R). destruct En' as (E' & HE' & C1' & C2' & R').
    set (D := Z.abs (units f)) in *.
    assert (EE : E = E').
    { assert (forall a b, 0 <= a -> 0 <= b -> (b = 0 \/ 2 ^ 20 * 2 ^ (4 * b + 794) <= D) ->
        D < 2 ^ 24 * 2 ^ (4 * a + 794) -> b <= a) as K.
      { intros a b Ha Hb [->|K1] K2; [lia|]. assert (20 + (4 * b + 794) < 24 + (4 * a + 794)); [|lia].
        apply (Z.pow_lt_mono_r_iff 2); [lia|lia|]. rewrite !(Z.pow_add_r 2 _ (_ + _)) by lia. lia. }
      apply Z.le_antisymm; apply K; auto; lia. }
    subst E'. rewrite H in R. rewrite R'. clear R'. set (q := 4 * E + 794) in *. destruct (_ =? 0) eqn:Z0; [discriminate|]. injection R as ->.
    f_equal. pose proof (div_range D q (2 ^ 24) ltac:(lia) C2 ltac:(lia)) as HM.
    set (M := D / 2 ^ q) in *.
    unfold ibm_neg. rewrite is_zero_spec by (apply mkword_ok; lia). rewrite mkword_M by lia. rewrite Z0.
    unfold mkword; cbn [w0 w1 w2 w3]. f_equal.
    rewrite byte_lxor by (destruct (units f <? 0); lia).
    destruct (units f <? 0) eqn:A, (- units f <? 0) eqn:B; try lia;
      [replace (128 + E <? 128) with false by lia|replace (0 + E <? 128) with true by lia]; lia. }
  rewrite E. f_equal. unfold ibm_neg. rewrite is_zero_spec by auto.
  assert (ibm_M w <> 0) by (intros C; apply NZ; auto; now apply ibm_units_zero).
  replace (ibm_M w =? 0) with false by lia. unfold word_ok in Ow. now rewrite byte_lxor by lia.
Qed.

(* --- zero tests --- *)

Lemma is_subnormal_spec w : word_ok w -> is_subnormal w = false <-> canonical w.
Proof.
  intros Hw. unfold is_subnormal. rewrite is_zero_spec by auto.
  pose proof (M_range w Hw) as HM. unfold canonical. change (2 ^ 20) with 1048576. change (2 ^ 24) with 16777216 in HM.
  destruct w as [a b c d]. unfold ibm_M, word_ok, IBM_ZERO in *; cbn [w0 w1 w2 w3] in *.
  destruct (_ =? 0) eqn:Z0.
  - unfold ibm_bytes. cbn [forallb w0 w1 w2 w3]. rewrite negb_false_iff, !andb_true_iff. split.
    + intros. left. f_equal; lia.
    + intros [[= ]|H]; [subst|lia]. lia.
  - split; [right; lia|]. intros [[= ]|H]; [subst; cbn in Z0; lia|lia].
Qed.

Lemma zero_subnormal_spec w : word_ok w ->
  (canonical w -> zero_subnormal w = w) /\ (~ canonical w -> zero_subnormal w = IBM_ZERO).
Proof.
  intros Hw. pose proof (is_subnormal_spec w Hw) as S. unfold zero_subnormal.
  destruct (is_subnormal w); split; intros; auto; exfalso; [|tauto].
  assert (true = false) by tauto. discriminate.
Qed.

Lemma ibm_bool_spec w : word_ok w -> ibm_bool w = true <-> ibm_units w <> 0.
Proof.
  intros Hw. unfold ibm_bool. rewrite is_zero_spec by auto. rewrite ibm_units_zero by auto. lia.
Qed.

(* --- equality --- *)

Lemma word_eqb_spec x y : word_eqb x y = true <-> x = y.
Proof.
  destruct x as [a b c d], y as [a' b' c' d']. unfold word_eqb; cbn [w0 w1 w2 w3]. rewrite !andb_true_iff. split.
  - intros. f_equal; lia.
  - intros [= -> -> -> ->]. lia.
Qed.

Lemma canonical_eq x y : word_ok x -> word_ok y -> canonical x -> canonical y ->
  word_eqb x y = true <-> ibm_units x = ibm_units y.
Proof.
  intros. rewrite word_eqb_spec. split; [now intros ->|]. intros. apply nf_unique; auto using canonical_nf.
Qed.

(* truncated comparison of mantissas at the larger exponent *)
Lemma trunc_cmp_tiny M E M' E' : 0 <= E -> 0 <= E' -> 0 < M -> 0 <= M' ->
  M * 16 ^ E < 2 ^ 20 -> E' <= E -> M' / 2 ^ (4 * (E - E')) = M -> M' * 16 ^ E' < 2 ^ 20.
Proof.
  intros HE HE' HM HM' T L Q.
  assert (E5 : E <= 4).
  { apply Z.lt_succ_r. change (Z.succ 4) with 5. apply (Z.pow_lt_mono_r_iff 16); [lia|lia|].
    change (16 ^ 5) with (2 ^ 20). assert (1 * 16 ^ E <= M * 16 ^ E) by (apply Z.mul_le_mono_nonneg_r; lia). lia. }
  rewrite <- pow16 in Q by lia. set (p := 16 ^ (E - E')) in *.
  assert (P : 0 < p) by (apply Z.pow_pos_nonneg; lia).
  assert (A : M' < (M + 1) * p).
  { pose proof (Z.mul_succ_div_gt M' p P). rewrite Q in H. lia. }
  assert (P' : 0 < 16 ^ E') by (apply Z.pow_pos_nonneg; lia).
  assert (B : M' * 16 ^ E' < (M + 1) * 16 ^ E).
  { replace (16 ^ E) with (p * 16 ^ E') by (unfold p; rewrite <- Z.pow_add_r by lia; f_equal; lia).
    rewrite Z.mul_assoc. apply Z.mul_lt_mono_pos_r; auto. }
  eapply Z.lt_le_trans; [exact B|].
  assert (C : 2 ^ 20 = 16 ^ (5 - E) * 16 ^ E) by (rewrite <- Z.pow_add_r by lia; replace (5 - E + E) with 5 by lia; reflexivity).
  assert (0 < 16 ^ E) by (apply Z.pow_pos_nonneg; lia).
  rewrite C in *. apply Z.mul_le_mono_nonneg_r; [lia|]. apply Z.mul_lt_mono_pos_r in T; lia.
Qed.

Lemma zero_dec_tiny w : word_ok w -> ~ tiny w -> ibm_M w <> 0 -> 2 ^ 20 <= ibm_M w * 16 ^ ibm_E w.
Proof. intros Hw T N. rewrite tiny_spec in T by auto. lia. Qed.

Lemma shift_le m a k : 0 <= m -> 0 <= a -> 0 <= k -> m / 2 ^ k <= m * 16 ^ a.
Proof.
  intros Hm Ha Hk. apply Z.le_trans with m.
  - apply Z.div_le_upper_bound; [lia|]. assert (1 <= 2 ^ k) by lia. nia.
  - assert (0 < 16 ^ a) by (apply Z.pow_pos_nonneg; lia). nia.
Qed.

Lemma ibm_eq_spec x y : word_ok x -> word_ok y -> exists b, ibm_eq x y = Ok b /\
  (b = true -> ibm_units x = ibm_units y \/ (tiny x /\ tiny y /\ ibm_E x <> ibm_E y)) /\
  (ibm_units x = ibm_units y -> b = true \/
     (ibm_units x = 0 /\ (w0 x <? 128) <> (w0 y <? 128))).
Proof.
  intros Hx Hy. unfold ibm_eq. destruct (word_eqb x y) eqn:W.
  { apply word_eqb_spec in W. subst. exists true. auto. }
  rewrite !signbit_spec by auto.
  destruct (Bool.eqb (negb (w0 x <? 128)) (negb (w0 y <? 128))) eqn:S; cbn [negb].
  2: { exists false. split; auto. split; [discriminate|]. intros U. right.
       assert (S' : (w0 x <? 128) <> (w0 y <? 128)).
       { intros E. rewrite E, eqb_reflx in S. discriminate. }
       split; auto. destruct (Z.eq_dec (ibm_M x) 0) as [Z0|N]; [now apply ibm_units_zero|].
       exfalso. apply S'. rewrite !units_sign_of; auto; [now rewrite U|].
       intros C. apply N. apply ibm_units_zero; auto. rewrite U. now apply ibm_units_zero. }
  destruct (try_normalize_spec x Hx) as (nx & Nx & Onx & Unx & _ & Tx & Cx).
  destruct (try_normalize_spec y Hy) as (ny & Ny & Ony & Uny & _ & Ty & Cy).
  rewrite Nx, Ny. cbn [bind].
  pose proof (is_subnormal_spec nx Onx) as Sx. pose proof (is_subnormal_spec ny Ony) as Sy.
  assert (TD : forall w, word_ok w -> tiny w \/ ~ tiny w).
  { intros w Hw. destruct (normalize_spec w Hw) as [(_ & T)|(_ & _ & T & _)]; auto. }
  destruct (negb (is_subnormal nx || is_subnormal ny)) eqn:SS.
  { apply negb_true_iff, orb_false_iff in SS as (S1 & S2).
    exists (word_eqb nx ny). split; auto. rewrite canonical_eq by tauto. rewrite Unx, Uny. tauto. }
  rewrite !exp16_spec, !int_mantissa_spec by auto.
  set (a := ibm_E nx). set (b := ibm_E ny). set (m := ibm_M nx). set (n := ibm_M ny).
  pose proof (E_range nx) as Ra. pose proof (E_range ny) as Rb. fold a in Ra. fold b in Rb.
  pose proof (M_range nx Onx) as Rm. pose proof (M_range ny Ony) as Rn. fold m in Rm. fold n in Rn.
  (* the comparison made *)
  assert (K : (let '(lm, le) := if a - 64 <? b - 64
                 then (Z.shiftr m (4 * (b - 64 - (a - 64))), a - 64 + (b - 64 - (a - 64))) else (m, a - 64) in
               let '(rm, re) := if b - 64 <? le
                 then (Z.shiftr n (4 * (le - (b - 64))), b - 64 + (le - (b - 64))) else (n, b - 64) in
               if negb (le =? re) then Err AssertionError else Ok (lm =? rm))
            = Ok (if a <? b then m / 2 ^ (4 * (b - a)) =? n else m =? n / 2 ^ (4 * (a - b)))).
  { destruct (a - 64 <? b - 64) eqn:L.
    - replace (a <? b) with true by lia. replace (a - 64 + (b - 64 - (a - 64))) with (b - 64) by lia.
      replace (b - 64 <? b - 64) with false by lia. replace (b - 64 =? b - 64) with true by lia. cbn [negb].
      rewrite Z.shiftr_div_pow2 by lia. do 4 f_equal. lia.
    - replace (a <? b) with false by lia. destruct (b - 64 <? a - 64) eqn:L'.
      + replace (b - 64 + (a - 64 - (b - 64))) with (a - 64) by lia. replace (a - 64 =? a - 64) with true by lia. cbn [negb].
        rewrite Z.shiftr_div_pow2 by lia. do 4 f_equal. lia.
      + assert (a = b) as -> by lia. replace (b - 64 =? b - 64) with true by lia. cbn [negb].
        do 2 f_equal. replace (4 * (b - b)) with 0 by lia. cbn. now rewrite Z.div_1_r. }
  cbv zeta in K |- *. rewrite K. clear K. eexists. split; [reflexivity|].
  assert (VX : Z.abs (ibm_units x) = m * 2 ^ (4 * a + 794)) by (rewrite <- Unx; apply abs_ibm_units; auto).
  assert (VY : Z.abs (ibm_units y) = n * 2 ^ (4 * b + 794)) by (rewrite <- Uny; apply abs_ibm_units; auto).
  assert (SG : m <> 0 -> n <> 0 -> Z.abs (ibm_units x) = Z.abs (ibm_units y) -> ibm_units x = ibm_units y).
  { intros Nm Nn AE. apply eqb_prop in S.
    assert (ibm_M x <> 0).
    { intros C. apply Nm. apply ibm_units_zero; auto. rewrite Unx. now apply ibm_units_zero. }
    assert (ibm_M y <> 0).
    { intros C. apply Nn. apply ibm_units_zero; auto. rewrite Uny. now apply ibm_units_zero. }
    pose proof (units_sign_of x Hx H). pose proof (units_sign_of y Hy H0).
    destruct (w0 x <? 128), (w0 y <? 128); cbn in S; try discriminate; lia. }
  split.
  - (* true => equal or both tiny *)
    intros B.
    destruct (TD x Hx) as [TX|TX]; destruct (TD y Hy) as [TY|TY].
    + pose proof (Tx TX). pose proof (Ty TY). subst nx ny. fold a b.
      destruct (Z.eq_dec a b) as [EE|EE]; [left|right; tauto].
      rewrite EE, Z.ltb_irrefl, Z.sub_diag, Z.mul_0_r, Z.pow_0_r, Z.div_1_r in B.
      apply tiny_spec in TX; auto. apply tiny_spec in TY; auto. fold m a in TX. fold n b in TY.
      apply SG; [tauto|tauto|]. rewrite VX, VY, EE. f_equal. lia.
    + left. exfalso. pose proof (Tx TX). subst nx. apply tiny_spec in TX as (NX & TX); auto. fold m a in NX, TX.
      destruct (Z.eq_dec n 0) as [N0|N0].
      * destruct (Cy TY) as [->|Cy']; [|fold n in Cy'; change (2 ^ 20) with 1048576 in Cy'; lia].
        change b with 0 in B. change n with 0 in B. replace (a <? 0) with false in B by lia.
        rewrite Z.div_0_l in B by lia. lia.
      * assert (NT : ~ tiny ny) by (apply canonical_not_tiny; auto).
        pose proof (zero_dec_tiny ny Ony NT N0) as BIG. fold n b in BIG.
        destruct (a <? b) eqn:L.
        -- destruct (Cy TY) as [Ec|Cy']; [unfold n in N0; rewrite Ec in N0; cbn in N0; lia|]. fold n in Cy'.
           assert (Q : m / 2 ^ (4 * (b - a)) = n) by lia.
           pose proof (shift_le m a (4 * (b - a)) ltac:(lia) ltac:(lia) ltac:(lia)).
           lia.
        -- assert (Q : n / 2 ^ (4 * (a - b)) = m) by lia.
           pose proof (trunc_cmp_tiny m a n b ltac:(lia) ltac:(lia) ltac:(lia) ltac:(lia) TX ltac:(lia) Q). lia.
    + left. exfalso. pose proof (Ty TY). subst ny. apply tiny_spec in TY as (NY & TY); auto. fold n b in NY, TY.
      destruct (Z.eq_dec m 0) as [M0|M0].
      * destruct (Cx TX) as [->|Cx']; [|fold m in Cx'; change (2 ^ 20) with 1048576 in Cx'; lia].
        change a with 0 in B. change m with 0 in B. destruct (0 <? b) eqn:L.
        -- rewrite Z.div_0_l in B by lia. lia.
        -- replace (4 * (0 - b)) with 0 in B by lia. rewrite Z.pow_0_r, Z.div_1_r in B. lia.
      * assert (NT : ~ tiny nx) by (apply canonical_not_tiny; auto).
        pose proof (zero_dec_tiny nx Onx NT M0) as BIG. fold m a in BIG.
        destruct (a <? b) eqn:L.
        -- assert (Q : m / 2 ^ (4 * (b - a)) = n) by lia.
           pose proof (trunc_cmp_tiny n b m a ltac:(lia) ltac:(lia) ltac:(lia) ltac:(lia) TY ltac:(lia) Q). lia.
        -- destruct (Cx TX) as [Ec|Cx']; [unfold m in M0; rewrite Ec in M0; cbn in M0; lia|]. fold m in Cx'.
           assert (Q : n / 2 ^ (4 * (a - b)) = m) by lia.
           pose proof (shift_le n b (4 * (a - b)) ltac:(lia) ltac:(lia) ltac:(lia)).
           lia.
    + exfalso. pose proof (proj2 Sx (Cx TX)) as E1. pose proof (proj2 Sy (Cy TY)) as E2.
      rewrite E1, E2 in SS. discriminate.
  - (* equal => true *)
    intros U. left. rewrite U in VX. rewrite VX in VY. destruct (a <? b) eqn:L.
    + replace (4 * b + 794) with (4 * (b - a) + (4 * a + 794)) in VY by lia.
      rewrite (Z.pow_add_r 2 (4 * (b - a))), Z.mul_assoc in VY by lia.
      apply Z.mul_cancel_r in VY; [|lia]. rewrite VY, Z.div_mul by lia. lia.
    + replace (4 * a + 794) with (4 * (a - b) + (4 * b + 794)) in VY by lia.
      rewrite (Z.pow_add_r 2 (4 * (a - b))), Z.mul_assoc in VY by lia.
      apply Z.mul_cancel_r in VY; [|lia]. rewrite <- VY, Z.div_mul by lia. lia.
Qed.

(* --- integer ratios --- *)

(* (n, d) is the reduced fraction, with positive denominator, of u units *)

Lemma reduced_unique u n d n' d' : reduced_fraction u n d -> reduced_fraction u n' d' -> n = n' /\ d = d'.
Proof.
  intros (P & G & E) (P' & G' & E').
  assert (X : n * d' = n' * d).
  { apply (Z.mul_cancel_r _ _ (2 ^ 1074)); [lia|].
    replace (n * d' * 2 ^ 1074) with (n * 2 ^ 1074 * d') by ring.
    replace (n' * d * 2 ^ 1074) with (n' * 2 ^ 1074 * d) by ring. rewrite E, E'. ring. }
  assert (D1 : (d | d')).
  { apply Z.gauss with n; [exists n'; lia|now rewrite Z.gcd_comm]. }
  assert (D2 : (d' | d)).
  { apply Z.gauss with n'; [exists n; lia|now rewrite Z.gcd_comm]. }
  assert (d = d') as -> by (apply Z.divide_antisym_nonneg; auto; lia). split; auto.
  apply Z.mul_cancel_r in X; lia.
Qed.

Lemma reduced_zero_of u n d : reduced_fraction u n d -> forall v, reduced_fraction v n d -> u = v.
Proof.
  intros (P & G & E) v (P' & G' & E'). rewrite E in E'. apply Z.mul_cancel_r in E'; lia.
Qed.

Lemma gcd_reduce s num den : 0 <= num -> 0 < den -> (s = 1 \/ s = -1) ->
  let g := Z.gcd num den in
  0 < den / g /\ Z.gcd (s * num / g) (den / g) = 1 /\ s * num / g * den = s * num * (den / g).
Proof.
  intros Hn Hd Hs g. assert (G0 : 0 < g).
  { pose proof (Z.gcd_nonneg num den). destruct (Z.eq_dec g 0) as [E|]; [|unfold g in *; lia].
    apply Z.gcd_eq_0_r in E. lia. }
  destruct (Z.gcd_divide_l num den) as (a & Ha). destruct (Z.gcd_divide_r num den) as (b & Hb). fold g in Ha, Hb.
  assert (Db : den / g = b) by (rewrite Hb; apply Z.div_mul; lia).
  assert (Dn : s * num / g = s * a) by (rewrite Ha, Z.mul_assoc; apply Z.div_mul; lia).
  rewrite Db, Dn. split; [nia|]. split.
  - assert (Z.gcd a b = 1).
    { assert (Z.gcd (num / g) (den / g) = 1) by (apply Z.gcd_div_gcd; [lia|reflexivity]).
      rewrite Db in H. replace (num / g) with a in H by (rewrite Ha; symmetry; apply Z.div_mul; lia). exact H. }
    destruct Hs as [-> | ->]; [now rewrite Z.mul_1_l|]. replace (-1 * a) with (- a) by lia. now rewrite Z.gcd_opp_l.
  - rewrite Ha, Hb. ring.
Qed.

Lemma as_integer_ratio_spec w : word_ok w ->
  let '(n, d) := as_integer_ratio w in reduced_fraction (ibm_units w) n d.
Proof.
  intros Hw. unfold as_integer_ratio. rewrite int_mantissa_spec, exp16_spec, signbit_spec by auto.
  pose proof (M_range w Hw) as HM. pose proof (E_range w) as HE.
  set (s := if negb (w0 w <? 128) then -1 else 1).
  set (num := if 0 <=? ibm_E w - 64 then ibm_M w * EXPONENT_BASE ^ (ibm_E w - 64) else ibm_M w).
  set (den := if 0 <=? ibm_E w - 64 then L24 else L24 * EXPONENT_BASE ^ Z.abs (ibm_E w - 64)).
  assert (Hn : 0 <= num).
  { unfold num, EXPONENT_BASE. destruct (0 <=? _); [|lia]. apply Z.mul_nonneg_nonneg; [lia|]. apply Z.pow_nonneg; lia. }
  assert (Hd : 0 < den).
  { unfold den, L24, EXPONENT_BASE. destruct (0 <=? _); [lia|]. apply Z.mul_pos_pos; [lia|]. apply Z.pow_pos_nonneg; lia. }
  assert (Hs : s = 1 \/ s = -1) by (unfold s; destruct (w0 w <? 128); cbn; auto).
  destruct (gcd_reduce s num den Hn Hd Hs) as (P & G & E). split; auto. split; auto.
  (* the fraction num/den is the value *)
  assert (V : s * num * 2 ^ 1074 = ibm_units w * den).
  { rewrite ibm_units_eq. replace (ibm_sign w) with s by (unfold s, ibm_sign; destruct (w0 w <? 128); reflexivity).
    unfold num, den, L24, EXPONENT_BASE. destruct (0 <=? ibm_E w - 64) eqn:L.
    - rewrite pow16 by lia. rewrite <- !Z.mul_assoc. do 2 f_equal. rewrite <- !Z.pow_add_r by lia. f_equal. lia.
    - rewrite pow16 by lia. rewrite <- !Z.mul_assoc. do 2 f_equal. rewrite <- !Z.pow_add_r by lia. f_equal. lia. }
  assert (ND : den <> 0) by lia.
  apply (Z.mul_cancel_r _ _ den ND).
  replace (s * num / Z.gcd num den * 2 ^ 1074 * den) with (s * num / Z.gcd num den * den * 2 ^ 1074) by ring.
  rewrite E. replace (s * num * (den / Z.gcd num den) * 2 ^ 1074) with (s * num * 2 ^ 1074 * (den / Z.gcd num den)) by ring.
  rewrite V. ring.
Qed.

Lemma f_ratio_spec f : float_wf f -> finite f -> exists n d, f_as_integer_ratio f = Ok (n, d) /\ reduced_fraction (units f) n d.
Proof.
  intros Wf F. destruct f as [s|s| |s m e]; cbn [finite] in F; try contradiction.
  - exists 0, 1. split; auto. split; [lia|]. split; [reflexivity|]. cbn [units]. lia.
  - pose proof (proj1 (bounded_spec _ _) Wf) as B. cbn [f_as_integer_ratio].
    set (num := if 0 <=? e then Z.pos m * 2 ^ e else Z.pos m).
    set (den := if 0 <=? e then 1 else 2 ^ (- e)).
    assert (Hn : 0 <= num) by (unfold num; destruct (0 <=? e); [apply Z.mul_nonneg_nonneg|]; lia).
    assert (Hd : 0 < den) by (unfold den; destruct (0 <=? e) eqn:L; lia).
    set (sg := if s then -1 else 1). assert (Hs : sg = 1 \/ sg = -1) by (unfold sg; destruct s; auto).
    destruct (gcd_reduce sg num den Hn Hd Hs) as (P & G & E).
    assert (GD : (Z.gcd num den | num)) by apply Z.gcd_divide_l.
    assert (G0 : Z.gcd num den <> 0) by (intros C; apply Z.gcd_eq_0_r in C; lia).
    assert (SN : (if s then - (num / Z.gcd num den) else num / Z.gcd num den) = sg * num / Z.gcd num den).
    { rewrite Z.divide_div_mul_exact by auto. unfold sg. destruct s; lia. }
    rewrite SN. do 2 eexists. split; [reflexivity|]. split; auto. split; auto.
    assert (V : sg * num * 2 ^ 1074 = units (S754_finite s m e) * den).
    { cbn [units]. fold sg. unfold num, den. destruct (0 <=? e) eqn:L.
      - rewrite Z.mul_1_r, <- !Z.mul_assoc. do 2 f_equal. now rewrite <- Z.pow_add_r by lia.
      - rewrite <- !Z.mul_assoc. do 2 f_equal. rewrite <- Z.pow_add_r by lia. f_equal. lia. }
    assert (ND : den <> 0) by lia.
    apply (Z.mul_cancel_r _ _ den ND).
    replace (sg * num / Z.gcd num den * 2 ^ 1074 * den) with (sg * num / Z.gcd num den * den * 2 ^ 1074) by ring.
    rewrite E. replace (sg * num * (den / Z.gcd num den) * 2 ^ 1074) with (sg * num * 2 ^ 1074 * (den / Z.gcd num den)) by ring.
    rewrite V. ring.
Qed.

Lemma ibm_eq_float_spec w f : word_ok w -> float_wf f -> exists b, ibm_eq_float w f = Ok b /\
  (b = true <-> finite f /\ ibm_units w = units f).
Proof.
  intros Hw Wf. unfold ibm_eq_float.
  destruct (f_isnan f || f_isinf f) eqn:S.
  - eexists. split; [reflexivity|]. destruct f as [s|s| |s m e]; try discriminate; cbn [finite];
      (try destruct s); (split; [cbn; discriminate|tauto]).
  - assert (F : finite f) by (destruct f; cbn in *; auto; discriminate).
    pose proof (as_integer_ratio_spec w Hw) as R. destruct (as_integer_ratio w) as (ln & ld).
    destruct (f_ratio_spec f Wf F) as (n & d & -> & R'). cbn [bind]. eexists. split; [reflexivity|].
    rewrite andb_true_iff. split.
    + intros (A & B). split; auto. assert (ln = n) by lia. assert (ld = d) by lia. subst.
      eapply reduced_zero_of; eauto.
    + intros (_ & U). rewrite U in R. destruct (reduced_unique _ _ _ _ _ R R'). lia.
Qed.

Lemma ibm_eq_rational_spec w n d : word_ok w -> 0 < d -> Z.gcd n d = 1 ->
  ibm_eq_rational w n d = true <-> n * 2 ^ 1074 = ibm_units w * d.
Proof.
  intros Hw Hd G. unfold ibm_eq_rational. pose proof (as_integer_ratio_spec w Hw) as R.
  destruct (as_integer_ratio w) as (ln & ld). rewrite andb_true_iff. split.
  - intros (A & B). assert (ln = n) by lia. assert (ld = d) by lia. subst. apply R.
  - intros U. assert (R' : reduced_fraction (ibm_units w) n d) by (repeat split; auto).
    destruct (reduced_unique _ _ _ _ _ R R'). lia.
Qed.

Lemma ibm_float_spec w : word_ok w -> ibm_float w = Ok (decoded w).
Proof. apply ibm2ieee_decoded. Qed.

Lemma ibm_order x y : word_ok x -> word_ok y ->
  ibm_lt x y = Ok (ibm_units x <? ibm_units y) /\ ibm_le x y = Ok (ibm_units x <=? ibm_units y) /\
  ibm_gt x y = Ok (ibm_units y <? ibm_units x) /\ ibm_ge x y = Ok (ibm_units y <=? ibm_units x).
Proof.
  intros Hx Hy. unfold ibm_lt, ibm_le, ibm_gt, ibm_ge, ibm_cmp. rewrite !ibm_float_spec by auto. cbn [bind].
  destruct (decoded_wf x Hx), (decoded_wf y Hy).
  rewrite !f_lt_units, !f_le_units by auto. rewrite !decoded_units by auto. auto.
Qed.

(* --- truncation to an integer --- *)

Lemma preserve_mask M b : 0 <= M < 2 ^ 24 -> 0 <= b ->
  Z.land M (Z.land (2 ^ 24 - 1) (Z.lnot (2 ^ b - 1))) = M / 2 ^ b * 2 ^ b.
Proof.
  intros HM Hb. replace (2 ^ 24 - 1) with (Z.ones 24) by reflexivity.
  replace (2 ^ b - 1) with (Z.ones b) by (rewrite Z.ones_equiv; lia).
  rewrite Z.land_assoc, Z.land_ones, Z.mod_small by lia.
  rewrite <- Z.ldiff_land, Z.ldiff_ones_r, Z.shiftr_div_pow2, Z.shiftl_mul_pow2 by lia. reflexivity.
Qed.

Lemma unit_pos : 0 < unit. Proof. unfold unit. lia. Qed.

Lemma units_quot w : word_ok w ->
  Z.quot (ibm_units w) unit = (if negb (w0 w <? 128) then -1 else 1) * (ibm_M w * 2 ^ (4 * ibm_E w + 794) / unit).
Proof.
  intros Hw. pose proof (M_range w Hw) as HM. pose proof (E_range w) as HE. pose proof unit_pos as P.
  rewrite ibm_units_eq.
  assert (DV : 0 <= ibm_M w * 2 ^ (4 * ibm_E w + 794)) by (apply Z.mul_nonneg_nonneg; lia).
  set (D := ibm_M w * 2 ^ (4 * ibm_E w + 794)) in *. clearbody D. generalize dependent unit. intros u P.
  unfold ibm_sign. destruct (w0 w <? 128); cbn [negb].
  - rewrite !Z.mul_1_l. apply Z.quot_div_nonneg; lia.
  - replace (-1 * D) with (- D) by ring. rewrite Z.quot_opp_l by (intros C; rewrite C in P; discriminate).
    rewrite Z.quot_div_nonneg by assumption. ring.
Qed.

(* M * 2^(4E+794) / 2^1074 with e = E - 64 *)
Lemma trunc_mag M e : 0 <= M < 2 ^ 24 -> -64 <= e < 64 ->
  M * 2 ^ (4 * (e + 64) + 794) / unit =
  if 0 <=? e then M / 2 ^ (24 - Z.min e 6 * 4) * 2 ^ (24 - Z.min e 6 * 4) * 2 ^ (4 * e) / 2 ^ 24 else 0.
Proof.
  intros HM He. unfold unit. destruct (0 <=? e) eqn:L.
  - destruct (Z.le_gt_cases 6 e) as [G|G].
    + rewrite Z.min_r by lia. change (24 - 6 * 4) with 0. rewrite Z.pow_0_r, Z.div_1_r, Z.mul_1_r.
      replace (4 * (e + 64) + 794) with ((4 * e - 24) + 1074) by lia.
      replace (4 * e) with ((4 * e - 24) + 24) at 2 by lia.
      rewrite (Z.pow_add_r 2 _ 1074), (Z.pow_add_r 2 _ 24) by lia.
      rewrite !Z.mul_assoc. rewrite Z.div_mul by (apply Z.pow_nonzero; lia).
      rewrite Z.div_mul by (apply Z.pow_nonzero; lia). reflexivity.
    + rewrite Z.min_l by lia. replace (24 - e * 4) with (24 - 4 * e) by lia.
      rewrite <- (Z.mul_assoc (M / _)), <- Z.pow_add_r by lia. replace (24 - 4 * e + 4 * e) with 24 by lia.
      rewrite Z.div_mul by (apply Z.pow_nonzero; lia).
      replace (2 ^ 1074) with (2 ^ (24 - 4 * e) * 2 ^ (4 * (e + 64) + 794)).
      2: { rewrite <- Z.pow_add_r by lia. f_equal. lia. }
      apply Z.div_mul_cancel_r; apply Z.pow_nonzero; lia.
  - apply Z.div_small. split; [apply Z.mul_nonneg_nonneg; lia|].
    apply Z.lt_le_trans with (2 ^ 24 * 2 ^ (4 * (e + 64) + 794)).
    + apply Z.mul_lt_mono_pos_r; lia.
    + rewrite <- Z.pow_add_r by lia. apply Z.pow_le_mono_r; lia.
Qed.

Lemma f_int_zero_mul e : -64 <= e < 0 ->
  (do p <- f_mul_pow16 (S754_zero false) e ;; f_int p) = Ok 0.
Proof.
  intros. unfold f_mul_pow16. replace (0 <=? e) with false by lia. rewrite f_pow2_eq by lia. reflexivity.
Qed.

Lemma ibm_trunc_spec w : word_ok w -> ibm_trunc w = Ok (Z.quot (ibm_units w) unit).
Proof.
  intros Hw. rewrite units_quot by auto.
  unfold ibm_trunc. rewrite int_mantissa_spec, exp16_spec, signbit_spec by auto.
  pose proof (M_range w Hw) as HM. pose proof (E_range w) as HE.
  unfold MAX_BITS_PRECISION_IBM_FLOAT, BITS_PER_NYBBLE, EXPONENT_BASE. change (24 / 4) with 6.
  remember (ibm_E w - 64) as e eqn:Ee. replace (ibm_E w) with (e + 64) by lia.
  assert (Hm : 0 <= 24 - Z.min e 6 * 4) by lia.
  rewrite preserve_mask by assumption.
  rewrite trunc_mag by lia.
  destruct (0 <=? e) eqn:L.
  - cbn [bind]. rewrite Z.shiftr_div_pow2, pow16 by lia. reflexivity.
  - assert (Z0 : ibm_M w / 2 ^ (24 - Z.min e 6 * 4) = 0).
    { apply Z.div_small. split; [lia|]. apply Z.lt_le_trans with (2 ^ 24); [lia|]. apply Z.pow_le_mono_r; lia. }
    rewrite Z0, Z.mul_0_l. change (f_of_int 0) with (Ok (S754_zero false)). cbn [bind].
    rewrite f_int_zero_mul by lia. reflexivity.
Qed.

Lemma ceil_floor_spec w : word_ok w -> exists c f, ibm_ceil w = Ok c /\ ibm_floor w = Ok f /\
  (w0 w < 128 \/ ~ (unit | ibm_units w) -> f * unit <= ibm_units w < (f + 1) * unit) /\
  (128 <= w0 w \/ ~ (unit | ibm_units w) -> (c - 1) * unit < ibm_units w <= c * unit).
Proof.
  intros Hw. unfold ibm_ceil, ibm_floor. rewrite ibm_trunc_spec, !signbit_spec by auto. cbn [bind].
  eexists _, _. split; [reflexivity|]. split; [reflexivity|].
  assert (P : 0 < unit) by (unfold unit; lia).
  pose proof (Z.quot_rem' (ibm_units w) unit) as QR.
  assert (NR : ~ (unit | ibm_units w) -> Z.rem (ibm_units w) unit <> 0).
  { intros N C. apply N. apply Z.rem_divide; lia. }
  pose proof (M_range w Hw). pose proof (E_range w).
  assert (0 <= ibm_M w * 2 ^ (4 * ibm_E w + 794)) by (apply Z.mul_nonneg_nonneg; lia).
  set (q := Z.quot (ibm_units w) unit) in *. set (r := Z.rem (ibm_units w) unit) in *.
  assert (EU : ibm_units w = unit * q + r) by exact QR.
  destruct (w0 w <? 128) eqn:S; cbn [negb].
  - assert (0 <= ibm_units w) by (rewrite ibm_units_eq; unfold ibm_sign; rewrite S; lia).
    pose proof (Z.rem_bound_pos (ibm_units w) unit H2 P) as RB. fold r in RB. split; intros H3.
    + lia.
    + destruct H3; [lia|]. specialize (NR H3). lia.
  - assert (ibm_units w <= 0) by (rewrite ibm_units_eq; unfold ibm_sign; rewrite S; lia).
    pose proof (Z.rem_bound_pos (- ibm_units w) unit ltac:(lia) P) as RB.
    rewrite Z.rem_opp_l in RB by lia. fold r in RB. split; intros H3.
    + destruct H3; [lia|]. specialize (NR H3). lia.
    + lia.
Qed.

(* --- frexp and ldexp --- *)

Lemma frexp_exact w : word_ok w -> exists m e, ibm_frexp w = Ok (m, e) /\ float_wf m /\ finite m /\
  e = 4 * (ibm_E w - 64) /\ units m = ibm_sign w * ibm_M w * 2 ^ 1050 /\
  Z.abs (units m) < unit /\
  ibm_ldexp m e = ieee2ibm (decoded w).
Proof.
  intros Hw. unfold ibm_frexp. rewrite int_mantissa_spec, exp16_spec, signbit_spec by auto.
  pose proof (M_range w Hw) as HM. pose proof (E_range w) as HE.
  assert (PU : 0 < unit) by (unfold unit; lia).
  set (s := negb (w0 w <? 128)).
  replace (ibm_sign w) with (if s then -1 else 1) by (unfold s, ibm_sign; destruct (w0 w <? 128); reflexivity).
  destruct (Z.eq_dec (ibm_M w) 0) as [Z0|N].
  - rewrite Z0. rewrite Z.mul_0_r. change (f_of_int 0) with (Ok (S754_zero false)). cbn [bind].
    replace (f_div (S754_zero false) F24) with (Ok (S754_zero false)) by (rewrite F24_eq; reflexivity). cbn [bind].
    do 2 eexists. split; [reflexivity|]. split; [reflexivity|]. split; [exact I|]. split; [lia|].
    split; [destruct s; reflexivity|]. split; [cbn; lia|].
    unfold decoded. rewrite Z0. cbn [Z.eqb]. change (ieee2ibm (S754_zero false)) with (Ok IBM_ZERO).
    unfold ibm_ldexp. change (negb _) with false at 1. cbv iota.
    replace (-256 <=? (ibm_E w - 64) * 4) with true by lia. replace ((ibm_E w - 64) * 4 <? 256) with true by lia.
    cbn [andb negb]. destruct (0 <=? (ibm_E w - 64) * 4) eqn:L.
    + rewrite binary_pow2 by lia. reflexivity.
    + rewrite f_pow2_eq by lia. reflexivity.
  - assert (H53 : 0 < ibm_M w < 2 ^ 53) by (apply small53; lia).
    assert (H24 : 1 <= nd (ibm_M w) <= 24) by (apply nd_24; lia).
    destruct (nm_spec _ H53) as (N1 & N2).
    assert (AB : Z.abs ((if s then -1 else 1) * ibm_M w) = ibm_M w) by (destruct s; lia).
    rewrite f_of_int_small by (rewrite AB; lia). rewrite AB. cbn [bind].
    replace ((if s then -1 else 1) * ibm_M w <? 0) with s by (destruct s; lia).
    rewrite f_div_F24 by (auto; lia). cbn [bind].
    set (m := S754_finite s (nm (ibm_M w)) (nd (ibm_M w) - 53 - 24)).
    assert (Wm : float_wf m) by (apply bounded_normal; auto; lia).
    assert (Um : units m = (if s then -1 else 1) * ibm_M w * 2 ^ 1050).
    { unfold m. cbn [units]. rewrite N1. rewrite <- !Z.mul_assoc. do 2 f_equal. rewrite <- Z.pow_add_r by lia. f_equal. lia. }
    assert (Am : Z.abs (units m) < unit).
    { rewrite Um. unfold unit. change 1074 with (24 + 1050). rewrite Z.pow_add_r by lia.
      rewrite !Z.abs_mul. rewrite (Z.abs_eq (2 ^ 1050)) by lia.
      apply Z.mul_lt_mono_pos_r; [lia|]. destruct s; lia. }
    exists m, (4 * (ibm_E w - 64)). split; [do 2 f_equal; lia|]. split; auto. split; [exact I|]. split; auto.
    split; auto. split; auto.
    unfold ibm_ldexp.
    assert (O1 : units (S754_finite true 4503599627370496 (-52)) = - unit).
    { unfold unit. cbn [units]. change 4503599627370496%positive with p52. rewrite p52_eq, <- Z.pow_add_r by lia.
      change (52 + (-52 + 1074)) with 1074. ring. }
    assert (O2 : units (S754_finite false 4503599627370496 (-52)) = unit).
    { unfold unit. cbn [units]. change 4503599627370496%positive with p52. rewrite p52_eq, <- Z.pow_add_r by lia.
      change (52 + (-52 + 1074)) with 1074. ring. }
    rewrite !f_le_units by (reflexivity || exact I || auto). rewrite O1, O2.
    replace (- unit <=? units m) with true by lia. replace (units m <=? unit) with true by lia. cbn [andb negb].
    replace (-256 <=? 4 * (ibm_E w - 64)) with true by lia. replace (4 * (ibm_E w - 64) <? 256) with true by lia.
    cbn [andb negb].
    assert (DE : S754_finite s (nm (ibm_M w)) (nd (ibm_M w) - 53 - 24 + 4 * (ibm_E w - 64)) = decoded w).
    { unfold decoded. replace (ibm_M w =? 0) with false by lia. unfold s. f_equal. lia. }
    destruct (0 <=? 4 * (ibm_E w - 64)) eqn:L.
    + rewrite binary_pow2 by lia. cbn [bind]. unfold m. rewrite f_mul_pow2 by (auto; lia).
      rewrite xorb_false_r, DE. reflexivity.
    + rewrite f_pow2_eq by lia. cbn [bind]. unfold m. rewrite f_mul_pow2 by (auto; lia).
      rewrite xorb_false_r, DE. reflexivity.
Qed.

(* --- sample arrays --- *)

Lemma map_res_app {A B} (f : A -> res B) l l' : 
  map_res f (l ++ l') = (do x <- map_res f l ;; do y <- map_res f l' ;; Ok (x ++ y)).
Proof.
  induction l as [|a l IH]; cbn [map_res app bind].
  - destruct (map_res f l'); reflexivity.
  - destruct (f a); cbn [bind]; auto. rewrite IH. destruct (map_res f l); cbn [bind]; auto.
    destruct (map_res f l'); reflexivity.
Qed.


Lemma ibm_new_short (l : list Z) : length l <> 4%nat -> ibm_new l = Err ValueError.
Proof.
  intros. unfold ibm_new. destruct (negb _); auto.
  destruct l as [|a [|b [|c [|d [|e l]]]]]; cbn in *; auto; lia.
Qed.

Lemma ibm_new_outcome (l : list Z) :
  (zlen l = 4 /\ byte_list l -> exists w, ibm_new l = Ok w /\ ibm_bytes w = l) /\
  (~ (zlen l = 4 /\ byte_list l) -> ibm_new l = Err ValueError).
Proof.
  assert (B : forallb is_byte l = true <-> byte_list l).
  { unfold byte_list. rewrite forallb_forall, Forall_forall. unfold is_byte. split; intros H x Hx; specialize (H x Hx); lia. }
  unfold ibm_new. split.
  - intros (L & BL). apply B in BL. rewrite BL. cbn [negb].
    destruct l as [|a [|b [|c [|d [|e l]]]]]; unfold zlen in L; cbn [length] in L; try lia. eexists. split; reflexivity.
  - intros N. destruct (forallb is_byte l) eqn:F; cbn [negb]; [|reflexivity].
    destruct l as [|a [|b [|c [|d [|e l]]]]]; try reflexivity. exfalso. apply N. split; [reflexivity|now apply B].
Qed.

Lemma unpack_range n : 0 <= n ->
  range_list (mk_range 0 (n * 4) 4) = map (fun i => Z.of_nat i * 4) (seq 0 (Z.to_nat n)).
Proof.
  intros. unfold range_list. cbn [r_start r_stop r_step].
  assert (range_len (mk_range 0 (n * 4) 4) = n) as ->.
  { unfold range_len. cbn [r_start r_stop r_step]. change (0 <? 4) with true. cbv iota. destruct (0 <? n * 4) eqn:E; lia. }
  apply map_ext. intros. lia.
Qed.

Lemma unpack_words (l : list Z) n : byte_list l -> (4 * n <= length l)%nat ->
  exists ws, map_res (fun i => ibm_new (py_slice l i (i + 4))) (map (fun i => Z.of_nat i * 4) (seq 0 n)) = Ok ws /\
    length ws = n /\ Forall word_ok ws /\ flat_map ibm_bytes ws = firstn (4 * n) l.
Proof.
  intros Hl. induction n as [|n IH]; intros L.
  - exists []. cbn. repeat split; auto.
  - destruct IH as (ws & E & Ln & F & Fl); [lia|].
    rewrite seq_S, map_app, map_res_app, E. cbn [bind map map_res Nat.add].
    assert (SL : exists a b c d, py_slice l (Z.of_nat n * 4) (Z.of_nat n * 4 + 4) = [a; b; c; d]).
    { unfold py_slice. replace (Z.to_nat (Z.of_nat n * 4 + 4 - Z.of_nat n * 4)) with 4%nat by lia.
      assert (length (skipn (Z.to_nat (Z.of_nat n * 4)) l) >= 4)%nat by (rewrite skipn_length; lia).
      destruct (skipn (Z.to_nat (Z.of_nat n * 4)) l) as [|a [|b [|c [|d t]]]]; cbn in *; try lia. eauto. }
    destruct SL as (a & b & c & d & SL).
    assert (Hb : byte_list [a; b; c; d]).
    { rewrite <- SL. unfold py_slice, byte_list in *. rewrite Forall_forall in *. intros x Hx.
      apply Hl. rewrite <- (firstn_skipn (Z.to_nat (Z.of_nat n * 4)) l). apply in_or_app. right.
      rewrite <- (firstn_skipn (Z.to_nat (Z.of_nat n * 4 + 4 - Z.of_nat n * 4)) (skipn (Z.to_nat (Z.of_nat n * 4)) l)).
      apply in_or_app. now left. }
    assert (Ow : word_ok (W a b c d)).
    { unfold byte_list in Hb. rewrite Forall_forall in Hb. unfold word_ok; cbn [w0 w1 w2 w3].
      repeat split; apply Hb; cbn; auto. }
    rewrite SL, ibm_new_ok by exact Ow. cbn [bind].
    eexists. split; [reflexivity|]. split; [rewrite app_length; cbn; lia|].
    split; [apply Forall_app; split; auto|].
    rewrite flat_map_app, Fl. cbn [flat_map app]. change (ibm_bytes (W a b c d)) with [a; b; c; d]. rewrite <- SL. rewrite app_nil_r.
    unfold py_slice. replace (Z.to_nat (Z.of_nat n * 4 + 4 - Z.of_nat n * 4)) with 4%nat by lia.
    replace (Z.to_nat (Z.of_nat n * 4)) with (4 * n)%nat by lia.
    replace (4 * Datatypes.S n)%nat with (4 * n + 4)%nat by lia.
    clear. set (k := (4 * n)%nat). clearbody k. revert l; induction k; intros l; cbn [Nat.add firstn skipn]; auto.
    destruct l; cbn [firstn skipn app]; auto. now rewrite IHk.
Qed.

Lemma map_res_ibm ws : map_res from_float (map RIbm ws) = Ok ws.
Proof. induction ws; cbn [map map_res from_float bind]; auto. now rewrite IHws. Qed.

Lemma unpack_pack l n : byte_list l -> zlen l = 4 * n -> exists ws,
  ibm_unpack l n = Ok ws /\ zlen ws = n /\ Forall word_ok ws /\
  flat_map ibm_bytes ws = l /\ ibm_pack (map RIbm ws) = Ok l.
Proof.
  intros Hl L. pose proof (zlen_nonneg l). unfold ibm_unpack. rewrite unpack_range by lia.
  assert (Z.of_nat (length l) = 4 * n) as L' by exact L.
  destruct (unpack_words l (Z.to_nat n) Hl ltac:(lia)) as (ws & E & Ln & F & Fl).
  exists ws. split; auto. split; [unfold zlen; lia|]. split; auto.
  rewrite firstn_all2 in Fl by lia. split; auto.
  unfold ibm_pack. rewrite map_res_ibm. cbn [bind]. now rewrite Fl.
Qed.

Lemma unpack_short l n : byte_list l -> zlen l < 4 * n -> ibm_unpack l n = Err ValueError.
Proof.
  intros Hl L. pose proof (zlen_nonneg l). unfold ibm_unpack. rewrite unpack_range by lia.
  set (k := Z.to_nat (zlen l / 4)).
  assert (K : (k < Z.to_nat n)%nat) by (unfold k; lia).
  assert (L' : Z.of_nat (length l) = zlen l) by reflexivity.
  assert (K1 : (4 * k <= length l)%nat) by (unfold k; lia).
  destruct (unpack_words l k Hl K1) as (ws & E & _).
  replace (Z.to_nat n) with (k + Datatypes.S (Z.to_nat n - k - 1))%nat by lia.
  rewrite seq_app, map_app, map_res_app, E. cbn [bind Nat.add seq map map_res].
  rewrite ibm_new_short; [reflexivity|]. unfold py_slice. rewrite firstn_length, skipn_length.
  unfold k in *. lia.
Qed.
