(* Proofs about the element types of arrays. *)
From Coq Require Import String ZArith List Bool Lia ZifyBool ZifyNat.
From Verif Require Import Py PyFacts PyFloat IbmFloat Spec_Ibm FloatFacts Util Packing Spec_Packing FileIO Text Float32
  Toolkit Spec_Segy Float32Facts Reader NumpyExt Spec_Numpy.
Import ListNotations.
Open Scope Z_scope.

Lemma single_bits_parts (s : bool) x m : 0 <= x < 256 -> 0 <= m < 2 ^ 23 ->
  let b := (if s then 2 ^ 31 else 0) + x * 2 ^ 23 + m in
  0 <= b < 2 ^ 32 /\ single_sign b = s /\ single_exp b = x /\ single_frac b = m.
Proof.
  intros X M b. assert (B : b = ((if s then 256 else 0) + x) * 2 ^ 23 + m) by (unfold b; destruct s; lia).
  assert (F : b mod 2 ^ 23 = m) by (rewrite B, Z.add_comm, Z.mod_add, Z.mod_small by lia; reflexivity).
  assert (D : b / 2 ^ 23 = (if s then 256 else 0) + x) by (rewrite B, Z.div_add_l, (Z.div_small m) by lia; lia).
  split; [unfold b; destruct s; lia|]. split; [|split; [|exact F]].
  - unfold single_sign. replace (b / 2 ^ 31) with (if s then 1 else 0); [destruct s; reflexivity|].
    destruct s; [apply (Z.div_unique_pos b (2 ^ 31) 1 (b - 2 ^ 31))|symmetry; apply Z.div_small]; unfold b; lia.
  - unfold single_exp. rewrite D. change (2 ^ 8) with 256. destruct s; [|now rewrite Z.mod_small by lia].
    rewrite <- (Z.mul_1_l 256) at 1. rewrite Z.add_comm, Z.mod_add, Z.mod_small by lia. reflexivity.
Qed.
Lemma decode_finite b : 0 <= b < 2 ^ 32 -> single_exp b < 255 -> finite (f32_decode b) /\ units (f32_decode b) = single_units b.
Proof.
  intros H E. destruct (decode_single b H) as (_ & _ & D). destruct (f32_decode b) as [s|s| |s m x] eqn:F.
  - split; [exact I|]. destruct D as (X & M & _). unfold single_units. rewrite X, M. cbn. now rewrite Z.mul_0_r.
  - lia.
  - lia.
  - split; [exact I|]. apply D.
Qed.

Lemma single_of (s : bool) M p : 0 <= M < 2 ^ 24 -> -149 <= p <= 104 ->
  exists bits g, is_single bits g /\ finite g /\ units g = (if s then -1 else 1) * (M * 2 ^ (p + 1074)).
Proof.
  intros HM HP. assert (Q : forall x m, 0 <= x < 255 -> 0 <= m < 2 ^ 23 ->
    (if x =? 0 then m * 2 ^ (-149 + 1074) else (2 ^ 23 + m) * 2 ^ (x - 150 + 1074)) = M * 2 ^ (p + 1074) ->
    exists bits g, is_single bits g /\ finite g /\ units g = (if s then -1 else 1) * (M * 2 ^ (p + 1074))).
  { intros x m X MM E. destruct (single_bits_parts s x m ltac:(lia) MM) as (B & S & EX & FR).
    set (b := (if s then 2 ^ 31 else 0) + x * 2 ^ 23 + m) in *. exists b, (f32_decode b).
    destruct (decode_finite b B ltac:(lia)) as (F & U). split; [now apply decode_single|]. split; [exact F|].
    rewrite U. unfold single_units. rewrite S, EX, FR, E. reflexivity. }
  destruct (Z.eq_dec M 0) as [->|NZ]. { apply (Q 0 0); [lia|lia|reflexivity]. }
  set (n := Z.log2 M). destruct (Z.log2_spec M ltac:(lia)) as (L1 & L2). fold n in L1, L2.
  assert (N0 : 0 <= n) by apply Z.log2_nonneg.
  assert (N1 : n < 24) by (apply Z.log2_lt_pow2; lia).
  destruct (Z_le_dec (-126) (p + n)) as [C|C].
  - apply (Q (p + n + 127) (M * 2 ^ (23 - n) - 2 ^ 23)); [lia| |].
    + assert (P1 : 2 ^ 23 = 2 ^ n * 2 ^ (23 - n)) by (rewrite <- Z.pow_add_r by lia; f_equal; lia).
      assert (P2 : 2 ^ 24 = 2 ^ Z.succ n * 2 ^ (23 - n)) by (rewrite <- Z.pow_add_r by lia; f_equal; lia).
      assert (0 < 2 ^ (23 - n)) by (apply Z.pow_pos_nonneg; lia). nia.
    + replace (p + n + 127 =? 0) with false by lia.
      replace (2 ^ 23 + (M * 2 ^ (23 - n) - 2 ^ 23)) with (M * 2 ^ (23 - n)) by lia.
      rewrite <- Z.mul_assoc, <- Z.pow_add_r by lia. f_equal. f_equal. lia.
  - apply (Q 0 (M * 2 ^ (p + 149))); [lia| |].
    + split; [apply Z.mul_nonneg_nonneg; lia|]. apply Z.lt_le_trans with (2 ^ Z.succ n * 2 ^ (p + 149)).
      * apply Z.mul_lt_mono_pos_r; [apply Z.pow_pos_nonneg; lia|lia].
      * rewrite <- Z.pow_add_r by lia. apply Z.pow_le_mono_r; lia.
    + change (0 =? 0) with true. cbv iota. rewrite <- Z.mul_assoc, <- Z.pow_add_r by lia. f_equal. f_equal. lia.
Qed.

Lemma single_below bits g : is_single bits g -> finite g -> Z.abs (units g) < 2 ^ 128 * 2 ^ 1074.
Proof.
  intros (R & _ & D) F. destruct g as [s|s| |s m x].
  1-3: cbn [units Z.abs]; apply Z.mul_pos_pos; apply Z.pow_pos_nonneg; lia.
  destruct D as (X & -> & _). unfold single_units.
  assert (FR : 0 <= single_frac bits < 2 ^ 23) by (apply Z.mod_pos_bound; lia).
  assert (XR : 0 <= single_exp bits) by (apply Z.mod_pos_bound; lia).
  rewrite Z.abs_mul. replace (Z.abs (if single_sign bits then -1 else 1)) with 1 by (destruct (single_sign bits); reflexivity). rewrite Z.mul_1_l.
  destruct (single_exp bits =? 0) eqn:E.
  - rewrite Z.abs_eq by (apply Z.mul_nonneg_nonneg; [lia|apply Z.pow_nonneg; lia]).
    apply Z.lt_le_trans with (2 ^ 23 * 2 ^ (-149 + 1074)); [apply Z.mul_lt_mono_pos_r; [apply Z.pow_pos_nonneg; lia|lia]|].
    rewrite <- !Z.pow_add_r by lia. apply Z.pow_le_mono_r; lia.
  - rewrite Z.abs_eq by (apply Z.mul_nonneg_nonneg; [lia|apply Z.pow_nonneg; lia]).
    apply Z.lt_le_trans with (2 ^ 24 * 2 ^ (single_exp bits - 150 + 1074)); [apply Z.mul_lt_mono_pos_r; [apply Z.pow_pos_nonneg; lia|lia]|].
    rewrite <- !Z.pow_add_r by lia. apply Z.pow_le_mono_r; lia.
Qed.

Lemma array_sample t dt e d pos v : make_dtype t = Ok dt -> sample_at t e d pos v ->
  (forall w, v = RIbm w -> 33 <= ibm_E w <= 96 \/ ibm_M w = 0) -> array_holds dt v.
Proof.
  intros MK S IB. destruct t; cbn [make_dtype] in MK; try discriminate; injection MK as <-; cbn [sample_at array_holds in_sample_type] in *.
  1-3: (destruct S as (n & -> & I & _); exists n; auto).
  - destruct S as (bits & f & -> & _ & I). exists bits, f. auto.
  - destruct S as (w & -> & W & _). specialize (IB w eq_refl). unfold ibm_units.
    assert (MR : 0 <= ibm_M w < 2 ^ 24) by (unfold ibm_M, word_ok in *; lia).
    assert (SG : ibm_sign w = if ibm_sign w <? 0 then -1 else 1) by (unfold ibm_sign; destruct (_ <? _); reflexivity).
    destruct IB as [E|M0].
    + destruct (single_of (ibm_sign w <? 0) (ibm_M w) (-24 + 4 * (ibm_E w - 64)) MR ltac:(lia)) as (bits & g & I & F & U).
      exists bits, g. rewrite <- SG in U. auto.
    + destruct (single_of false 0 0 ltac:(lia) ltac:(lia)) as (bits & g & I & F & U). exists bits, g.
      split; [exact I|]. split; [exact F|]. rewrite U, M0, !Z.mul_0_l, !Z.mul_0_r. reflexivity.
Qed.

Lemma array_large w : 2 ^ 128 * 2 ^ 1074 <= Z.abs (ibm_units w) -> ~ array_holds D_f4 (RIbm w).
Proof. intros L (bits & g & I & F & U). pose proof (single_below bits g I F). rewrite U in H. lia. Qed.

Lemma array_field c v dt : make_dtype (field_segy_type c) = Ok dt -> in_ctype (ft_ctype c) v -> array_holds dt (RInt v).
Proof. unfold field_segy_type. destruct (ft_ctype c); cbn [make_dtype]; intros [= <-] H; exists v; auto. Qed.
