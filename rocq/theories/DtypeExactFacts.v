(* Proofs about which IBM floats are single floats. *)
From Coq Require Import String ZArith List Bool Lia ZifyBool ZifyNat.
From Verif Require Import Py PyFacts PyFloat IbmFloat Spec_Ibm FloatFacts Util Packing Spec_Packing FileIO Text Float32
  Toolkit Spec_Segy Float32Facts Reader NumpyExt Spec_Numpy DtypeFacts.
Import ListNotations.
Open Scope Z_scope.

Lemma single_multiple bits g : is_single bits g -> finite g -> (2 ^ 925 | units g).
Proof.
  intros (R & _ & D) F. destruct g as [s|s| |s m x].
  1-3: apply Z.divide_0_r.
  destruct D as (X & -> & _). unfold single_units. apply Z.divide_mul_r.
  destruct (single_exp bits =? 0) eqn:E.
  - change (-149 + 1074) with 925. apply Z.divide_factor_r.
  - assert (XR : 0 <= single_exp bits) by (apply Z.mod_pos_bound; lia).
    replace (single_exp bits - 150 + 1074) with ((single_exp bits - 1) + 925) by lia.
    rewrite Z.pow_add_r by lia. apply Z.divide_mul_r, Z.divide_factor_r.
Qed.

Lemma ibm_single w : word_ok w -> Z.abs (ibm_units w) < 2 ^ 128 * 2 ^ 1074 -> (2 ^ 925 | ibm_units w) ->
  exists bits g, is_single bits g /\ finite g /\ units g = ibm_units w.
Proof.
  intros W L D. 
  assert (MR : 0 <= ibm_M w < 2 ^ 24) by (unfold ibm_M, word_ok in *; lia).
  assert (ER : 0 <= ibm_E w < 128) by (unfold ibm_E, word_ok in *; lia).
  assert (SG : ibm_sign w = if ibm_sign w <? 0 then -1 else 1) by (unfold ibm_sign; destruct (_ <? _); reflexivity).
  set (p := -24 + 4 * (ibm_E w - 64)).
  assert (U : ibm_units w = (if ibm_sign w <? 0 then -1 else 1) * (ibm_M w * 2 ^ (p + 1074))) by (rewrite <- SG; unfold ibm_units, p; lia).
  assert (A : Z.abs (ibm_units w) = ibm_M w * 2 ^ (p + 1074)).
  { rewrite U, Z.abs_mul. replace (Z.abs (if _ : bool then -1 else 1)) with 1 by (destruct (_ <? _); reflexivity).
    rewrite Z.mul_1_l. apply Z.abs_eq, Z.mul_nonneg_nonneg; [lia|apply Z.pow_nonneg; lia]. }
  apply Z.divide_abs_r in D. rewrite A in L, D.
  assert (Q : exists M' p', 0 <= M' < 2 ^ 24 /\ -149 <= p' <= 104 /\ ibm_M w * 2 ^ (p + 1074) = M' * 2 ^ (p' + 1074)).
  { destruct (Z_lt_dec p (-149)) as [C|C]; [|destruct (Z_lt_dec 104 p) as [C'|C']].
    - assert (P : 2 ^ 925 = 2 ^ (-149 - p) * 2 ^ (p + 1074)) by (rewrite <- Z.pow_add_r by lia; f_equal; lia).
      rewrite P in D. apply Z.mul_divide_cancel_r in D; [|apply Z.pow_nonzero; lia]. destruct D as (k & K).
      assert (PP : 0 < 2 ^ (-149 - p)) by (apply Z.pow_pos_nonneg; lia).
      exists k, (-149). split; [|split; [lia|]].
      + revert K PP MR. generalize (2 ^ (-149 - p)). intros z K PP MR. nia.
      + rewrite K. change (-149 + 1074) with 925. rewrite P. apply eq_sym, Z.mul_assoc.
    - assert (P : 2 ^ (p + 1074) = 2 ^ (p - 104) * 2 ^ (104 + 1074)) by (rewrite <- Z.pow_add_r by lia; f_equal; lia).
      assert (P2 : 2 ^ 128 * 2 ^ 1074 = 2 ^ 24 * 2 ^ (104 + 1074)) by (rewrite <- !Z.pow_add_r by lia; reflexivity).
      exists (ibm_M w * 2 ^ (p - 104)), 104. rewrite P, Z.mul_assoc in *. split; [|split; [lia|reflexivity]].
      split; [apply Z.mul_nonneg_nonneg; [lia|apply Z.pow_nonneg; lia]|].
      rewrite P2 in L. apply Z.mul_lt_mono_pos_r in L; [exact L|]. apply Z.pow_pos_nonneg; lia.
    - exists (ibm_M w), p. split; [exact MR|]. split; [lia|reflexivity]. }
  destruct Q as (M' & p' & QM & QP & QE). destruct (single_of (ibm_sign w <? 0) M' p' QM QP) as (bits & g & I & F & V).
  exists bits, g. split; [exact I|]. split; [exact F|]. now rewrite V, U, QE.
Qed.

Lemma array_exact w : word_ok w ->
  (array_holds D_f4 (RIbm w) <-> Z.abs (ibm_units w) < 2 ^ 128 * 2 ^ 1074 /\ (2 ^ 925 | ibm_units w)).
Proof.
  intros W. split.
  - intros (bits & g & I & F & U). rewrite <- U. split; [exact (single_below bits g I F)|exact (single_multiple bits g I F)].
  - intros (L & D). exact (ibm_single w W L D).
Qed.
