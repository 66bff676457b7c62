(* Rounding to nearest, ties to even, has only one result. *)
From Coq Require Import ZArith List Bool Lia ZifyBool.
From Verif Require Import Py PyFloat Spec_Ibm FloatFacts.
Open Scope Z_scope.

Lemma pow_split a b : 0 <= a -> a <= b -> 2 ^ b = 2 ^ a * 2 ^ (b - a).
Proof. intros. rewrite <- Z.pow_add_r by lia. f_equal. lia. Qed.

(* the magnitude next above that of a finite number with an even significand is
   not even, and any larger double is at least that large *)
Lemma next_above m e m' e' : bounded 53 1024 m e = true -> bounded 53 1024 m' e' = true -> Z.even (Z.pos m) = true -> Z.even (Z.pos m') = true ->
  Z.pos m * 2 ^ (e + 1074) < Z.pos m' * 2 ^ (e' + 1074) -> exists n, bounded 53 1024 n e = true /\
  Z.pos m * 2 ^ (e + 1074) < Z.pos n * 2 ^ (e + 1074) < Z.pos m' * 2 ^ (e' + 1074).
Proof.
  intros B B' E E' L. assert (Q : exists k, Z.pos m = 2 * k) by (exists (Z.div2 (Z.pos m)); rewrite (Z.div2_odd (Z.pos m)) at 1; rewrite <- Z.negb_even, E; cbn; lia).
  assert (Q' : exists k, Z.pos m' = 2 * k) by (exists (Z.div2 (Z.pos m')); rewrite (Z.div2_odd (Z.pos m')) at 1; rewrite <- Z.negb_even, E'; cbn; lia).
  destruct Q as (k & K), Q' as (k' & K'). pose proof (proj1 (bounded_spec _ _) B) as S. pose proof (proj1 (bounded_spec _ _) B') as S'.
  exists (m + 1)%positive. split. { apply bounded_spec. lia. }
  rewrite Pos2Z.inj_add. assert (P : 0 < 2 ^ (e + 1074)) by (apply Z.pow_pos_nonneg; lia). split; [nia|].
  destruct (Z.le_gt_cases e e') as [X|X].
  - rewrite (pow_split (e + 1074) (e' + 1074)) in * by lia. set (u := 2 ^ (e + 1074)) in *. assert (P' : 0 < 2 ^ (e' + 1074 - (e + 1074))) by (apply Z.pow_pos_nonneg; lia).
    set (z := 2 ^ (e' + 1074 - (e + 1074))) in *. assert (A1 : Z.pos m < Z.pos m' * z) by nia.
    assert (A2 : Z.pos m + 1 <> Z.pos m' * z) by (rewrite K, K', <- Z.mul_assoc; generalize (k' * z); lia).
    replace (Z.pos m' * (u * z)) with (Z.pos m' * z * u) by ring. apply Z.mul_lt_mono_pos_r; lia.
  - exfalso. rewrite (pow_split (e' + 1074) (e + 1074)) in L by lia. assert (P2 : 0 < 2 ^ (e' + 1074)) by (apply Z.pow_pos_nonneg; lia). revert P2 L.
    generalize (2 ^ (e' + 1074)). intros u P2 L. assert (2 ^ 1 <= 2 ^ (e + 1074 - (e' + 1074))) by (apply Z.pow_le_mono_r; lia).
    revert H L. generalize (2 ^ (e + 1074 - (e' + 1074))). intros z Hz L. assert (2 ^ 52 <= Z.pos m) by lia. assert (Z.pos m' < 2 ^ 53) by lia.
    assert (M : Z.pos m' <= Z.pos m * z) by nia. replace (Z.pos m * (u * z)) with (Z.pos m * z * u) in L by ring. nia.
Qed.

(* no two numbers with even significands are next to each other *)
Lemma between_even r1 r2 : float_wf r1 -> finite r1 -> float_wf r2 -> finite r2 -> even_significand r1 -> even_significand r2 -> units r1 < units r2 ->
  exists g, float_wf g /\ finite g /\ units r1 < units g < units r2.
Proof.
  intros W1 F1 W2 F2 E1 E2 L. destruct (Z.lt_trichotomy (units r1) 0) as [N1|[Z1|P1]].
  - destruct (Z.lt_trichotomy (units r2) 0) as [N2|[Z2|P2]].
    + destruct r1 as [s|s| |s m e]; try destruct F1; cbn [units] in *; try lia. destruct r2 as [s'|s'| |s' m' e']; try destruct F2; cbn [units] in *; try lia.
      pose proof (proj1 (bounded_spec _ _) W1). pose proof (proj1 (bounded_spec _ _) W2).
      assert (0 < 2 ^ (e + 1074)) by (apply Z.pow_pos_nonneg; lia). assert (0 < 2 ^ (e' + 1074)) by (apply Z.pow_pos_nonneg; lia).
      destruct s; [|nia]. destruct s'; [|nia].
      destruct (next_above m' e' m e) as (n & B & C); auto; [nia|]. exists (S754_finite true n e'). split; [exact B|]. split; [exact I|]. cbn [units]. nia.
    + destruct r1 as [s|s| |s m e]; try destruct F1; cbn [units] in *; try lia.
      pose proof (proj1 (bounded_spec _ _) W1) as S. assert (P : 0 < 2 ^ (e + 1074)) by (apply Z.pow_pos_nonneg; lia).
      destruct s; [|nia]. exists (S754_finite true 1 (-1074)). split; [reflexivity|]. split; [exact I|]. cbn [units]. change (2 ^ (-1074 + 1074)) with 1.
      assert (1 < Z.pos m). { cbn [even_significand] in E1. destruct (Pos.eq_dec m 1) as [->|]; [discriminate|lia]. } nia.
    + exists (S754_zero false). split; [reflexivity|]. split; [exact I|]. cbn [units]. lia.
  - destruct r2 as [s'|s'| |s' m' e']; try destruct F2; cbn [units] in *; try lia.
    pose proof (proj1 (bounded_spec _ _) W2) as S. assert (P : 0 < 2 ^ (e' + 1074)) by (apply Z.pow_pos_nonneg; lia).
    destruct s'; [nia|]. exists (S754_finite false 1 (-1074)). split; [reflexivity|]. split; [exact I|]. cbn [units]. change (2 ^ (-1074 + 1074)) with 1.
    assert (1 < Z.pos m'). { cbn [even_significand] in E2. destruct (Pos.eq_dec m' 1) as [->|]; [discriminate|lia]. } nia.
  - destruct r1 as [s|s| |s m e]; try destruct F1; cbn [units] in *; try lia. destruct r2 as [s'|s'| |s' m' e']; try destruct F2; cbn [units] in *; try lia.
    pose proof (proj1 (bounded_spec _ _) W1). pose proof (proj1 (bounded_spec _ _) W2).
    assert (0 < 2 ^ (e + 1074)) by (apply Z.pow_pos_nonneg; lia). assert (0 < 2 ^ (e' + 1074)) by (apply Z.pow_pos_nonneg; lia).
    destruct s; [nia|]. destruct s'; [nia|].
    destruct (next_above m e m' e') as (n & B & C); auto; [nia|]. exists (S754_finite false n e). split; [exact B|]. split; [exact I|]. cbn [units]. nia.
Qed.

Lemma rounds_unique N D r1 r2 : 0 < D -> rounds_to N D r1 -> rounds_to N D r2 -> units r1 = units r2.
Proof.
  assert (K : forall r1 r2, 0 < D -> rounds_to N D r1 -> rounds_to N D r2 -> ~ units r1 < units r2).
  { intros a b P (W1 & F1 & H1) (W2 & F2 & H2) L. destruct (H1 b W2 F2) as (A1 & A2). destruct (H2 a W1 F1) as (B1 & B2).
    assert (E : Z.abs (units a * D - N) = Z.abs (units b * D - N)) by lia.
    destruct (between_even a b W1 F1 W2 F2 (A2 E ltac:(lia)) (B2 (eq_sym E) ltac:(lia)) L) as (g & Wg & Fg & U).
    destruct (H1 g Wg Fg) as (G & _). revert E G. clear -U P. generalize (units a) (units b) (units g) U. intros x y z Q E G. nia. }
  intros P A B. pose proof (K r1 r2 P A B). pose proof (K r2 r1 P B A). lia.
Qed.
