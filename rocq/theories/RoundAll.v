(* Products of doubles of any size: rounding and overflow. *)
From Coq Require Import ZArith Bool Lia ZifyBool SpecFloat.
From Verif Require Import Py PyFloat IbmFloat Spec_Ibm FloatFacts RoundFacts Spec_Scale.
Open Scope Z_scope.

Lemma fl_wf_top s M e : 0 <= M <= 2 ^ 53 -> -1074 <= e <= 971 -> (M = 2 ^ 53 -> e <= 970) -> (e = -1074 \/ 2 ^ 52 <= M) ->
  float_wf (fl s M e) /\ finite (fl s M e) /\
  units (fl s M e) = (if s then -1 else 1) * (M * 2 ^ (e + 1074)) /\
  (Z.even M = true -> even_significand (fl s M e)).
Proof.
  intros HM He Top C. unfold fl, float_wf. destruct M as [|p|p]; [| |lia].
  - cbn. repeat split; auto; destruct s; reflexivity.
  - destruct (Z.pos p =? 2 ^ 53) eqn:E.
    + assert (Z.pos p = 2 ^ 53) as Ep by lia. specialize (Top Ep). rewrite Ep. cbn [valid_binary finite even_significand].
      split; [apply bounded_normal; rewrite ?p52_eq; lia|]. split; auto. split; [|reflexivity].
      cbn [units]. rewrite p52_eq. f_equal. rewrite <- !Z.pow_add_r by lia. f_equal. lia.
    + cbn [valid_binary finite even_significand]. split; [apply bounded_spec; lia|]. auto.
Qed.

Lemma round_aux_top s m ex l T N lo : 0 <= m -> 0 < T -> inb (shr_record_of_loc m l) (2 ^ (ex - lo) * T) N ->
  lo <= ex -> ex <= fexp 53 1024 (Zd m + ex) ->
  let e1 := fexp 53 1024 (Zd m + ex) in
  exists M, 0 <= M <= 2 ^ 53 /\ (e1 = -1074 \/ 2 ^ 52 <= M) /\
    2 * Z.abs (M * (2 ^ (e1 - lo) * T) - N) <= 2 ^ (e1 - lo) * T /\
    (2 * Z.abs (M * (2 ^ (e1 - lo) * T) - N) = 2 ^ (e1 - lo) * T -> Z.even M = true) /\
    (e1 <= 971 -> (M = 2 ^ 53 -> e1 <= 970) -> binary_round_aux 53 1024 s m ex l = fl s M e1) /\
    (972 <= e1 \/ (M = 2 ^ 53 /\ 971 <= e1) -> binary_round_aux 53 1024 s m ex l = S754_infinity s).
Proof.
  intros Hm HT B Hlo Hex e1.
  assert (E1 : e1 = Z.max (Zd m + ex - 53) (-1074)) by apply fexp_max.
  assert (Hex' : ex <= e1) by exact Hex.
  assert (P : 0 < 2 ^ (ex - lo) * T) by (apply Z.mul_pos_pos; lia).
  destruct (shr_inb m l ex (e1 - ex) _ N Hm ltac:(lia) P B) as (rec & Sh & B' & M1).
  rewrite Z.mul_assoc, <- Z.pow_add_r in B' by lia.
  replace (e1 - ex + (ex - lo)) with (e1 - lo) in B' by lia.
  assert (P1 : 0 < 2 ^ (e1 - lo) * T) by (apply Z.mul_pos_pos; lia).
  assert (R0 : 0 <= shr_m rec) by (rewrite M1; apply Z.div_pos; lia).
  assert (R1 : shr_m rec < 2 ^ 53).
  { rewrite M1. apply Z.div_lt_upper_bound; [lia|]. rewrite <- Z.pow_add_r by lia.
    destruct (Z.eq_dec m 0) as [->|N0]; [lia|]. destruct (Zd_bounds m) as (_ & _ & U); [lia|].
    eapply Z.lt_le_trans; [exact U|]. apply Z.pow_le_mono_r; lia. }
  assert (R2 : e1 = -1074 \/ 2 ^ 52 <= shr_m rec).
  { destruct (Z.eq_dec e1 (-1074)) as [|Ne]; [now left|right].
    assert (m <> 0) by (intros ->; rewrite Zd_0 in *; lia).
    rewrite M1. apply Z.div_le_lower_bound; [lia|]. rewrite <- Z.pow_add_r by lia.
    destruct (Zd_bounds m) as (_ & L & _); [lia|].
    replace (e1 - ex + 52) with (Zd m - 1) by lia. exact L. }
  destruct (rne_spec rec _ N R0 P1 B') as (C & D & Ev).
  set (M := round_nearest_even (shr_m rec) (loc_of_shr_record rec)) in *.
  exists M. split; [lia|]. split; [lia|]. split; auto. split; auto.
  assert (EQ : binary_round_aux 53 1024 s m ex l = if M =? 2 ^ 53 then (if e1 <=? 970 then fl s M e1 else S754_infinity s)
    else if (e1 <=? 971) || (M =? 0) then fl s M e1 else S754_infinity s).
  { unfold binary_round_aux, shr_fexp at 1. fold (Zd m).
    change (fexp 53 1024 (Zd m + ex)) with e1. rewrite Sh. fold M.
    replace (ex + (e1 - ex)) with e1 by lia.
    clearbody M. clear Sh B B' D Ev. unfold shr_fexp. fold (Zd M).
    destruct (Z.eq_dec M (2 ^ 53)) as [->|NM].
    - change (Zd (2 ^ 53)) with 54. rewrite fexp_max. replace (Z.max (54 + e1 - 53) (-1074) - e1) with 1 by lia.
      change (shr_record_of_loc (2 ^ 53) loc_Exact) with (Build_shr_record (2 ^ 52 * 2 ^ 1) false false).
      rewrite shr_exact by lia. cbn [shr_m]. change (2 ^ 52) with (Z.pos p52).
      unfold fl. change (2 ^ 53) with 9007199254740992. cbn [Z.eqb]. rewrite Pos.eqb_refl.
      destruct (e1 + 1 <=? 1024 - 53) eqn:Q; [replace (e1 <=? 970) with true by lia|replace (e1 <=? 970) with false by lia]; reflexivity.
    - assert (HM : 0 <= M < 2 ^ 53) by lia. replace (M =? 2 ^ 53) with false by lia.
      rewrite fexp_max. rewrite shr_zero.
      2: { pose proof (Zd_lt M 53 ltac:(lia) ltac:(lia) ltac:(lia)). lia. }
      destruct M as [|p|p]; [|cbn [Z.eqb]; rewrite orb_false_r|lia].
      + rewrite orb_true_r. reflexivity.
      + cbn [shr_record_of_loc shr_m fl]. replace (Z.pos p =? 2 ^ 53) with false by lia. change (1024 - 53) with 971. reflexivity. }
  rewrite EQ. clearbody M. split.
  - intros He Ht. destruct (M =? 2 ^ 53) eqn:Q; [replace (e1 <=? 970) with true by lia; reflexivity|]. replace (e1 <=? 971) with true by lia. reflexivity.
  - intros Q. destruct (M =? 2 ^ 53) eqn:Q2; [replace (e1 <=? 970) with false by lia; reflexivity|].
    replace (e1 <=? 971) with false by lia. replace (M =? 0) with false by lia. reflexivity.
Qed.

Lemma fl_nearest_top (s : bool) M e T N lo : 0 <= N -> 0 < T -> lo <= -1074 ->
  0 <= M <= 2 ^ 53 -> -1074 <= e <= 971 -> (M = 2 ^ 53 -> e <= 970) -> (e = -1074 \/ 2 ^ 52 <= M /\ 2 ^ 52 * (2 ^ (e - lo) * T) <= N) ->
  2 * Z.abs (M * (2 ^ (e - lo) * T) - N) <= 2 ^ (e - lo) * T ->
  (2 * Z.abs (M * (2 ^ (e - lo) * T) - N) = 2 ^ (e - lo) * T -> Z.even M = true) ->
  rounds_to ((if s then -1 else 1) * N) (T * 2 ^ (-1074 - lo)) (fl s M e).
Proof.
  intros HN HT Hlo HM He Top C D Ev.
  destruct (fl_wf_top s M e HM He Top ltac:(tauto)) as (Wf & F & U & Es).
  split; auto. split; auto. intros g Wg Fg. rewrite U.
  set (sg := if s then -1 else 1). set (K := 2 ^ (-1074 - lo)). assert (HK : 0 < K) by (unfold K; lia).
  set (St := 2 ^ (e - lo) * T) in *. assert (HS : 0 < St) by (apply Z.mul_pos_pos; lia).
  assert (SK : forall x, -1074 <= x -> 2 ^ (x + 1074) * K = 2 ^ (x - lo)).
  { intros x Hx. unfold K. rewrite <- Z.pow_add_r by lia. f_equal. lia. }
  assert (A : Z.abs (sg * (M * 2 ^ (e + 1074)) * (T * K) - sg * N) = Z.abs (M * St - N)).
  { replace (sg * (M * 2 ^ (e + 1074)) * (T * K) - sg * N) with (sg * (M * (2 ^ (e + 1074) * K * T) - N)) by ring.
    rewrite SK by lia. fold St. unfold sg. destruct s; lia. }
  rewrite A.
  set (G := sg * units g * K).
  assert (Bg : Z.abs (units g * (T * K) - sg * N) = Z.abs (G * T - N)).
  { unfold G, sg. destruct s.
    - replace (-1 * units g * K * T - N) with (- (units g * (T * K) - -1 * N)) by ring. lia.
    - f_equal. ring. }
  rewrite Bg.
  assert (NE : units g <> sg * (M * 2 ^ (e + 1074)) -> G <> M * 2 ^ (e - lo)).
  { intros X Y. apply X. unfold G in Y. rewrite <- SK in Y by lia.
    assert (Y' : sg * units g = M * 2 ^ (e + 1074)) by (apply (Z.mul_cancel_r _ _ K); lia).
    rewrite <- Y'. unfold sg. destruct s; lia. }
  assert (Cs : G < 0 \/ (exists k, G = k * 2 ^ (e - lo)) \/ (e <> -1074 /\ 0 <= G < 2 ^ 52 * 2 ^ (e - lo))).
  { destruct (Z.lt_ge_cases G 0) as [|G0]; [now left|right].
    destruct g as [t|t| |t m' e']; cbn [finite] in Fg; try contradiction.
    - left. exists 0. unfold G. cbn [units]. ring.
    - pose proof (proj1 (bounded_spec _ _) Wg) as Bd.
      assert (GE : Z.abs G = Z.pos m' * 2 ^ (e' - lo)).
      { unfold G. rewrite !Z.abs_mul. cbn [units]. rewrite !Z.abs_mul, (Z.abs_eq K), (Z.abs_eq (2 ^ _)), (Z.abs_eq (Z.pos m')) by lia.
        rewrite <- SK by lia. unfold sg. destruct s, t; cbn [Z.abs]; ring. }
      rewrite Z.abs_eq in GE by lia. destruct (Z.le_gt_cases e e') as [L|L].
      + left. exists (Z.pos m' * 2 ^ (e' - e)). rewrite GE, <- Z.mul_assoc, <- Z.pow_add_r by lia. do 2 f_equal. lia.
      + right. split; [lia|]. split; [lia|]. rewrite GE.
        apply Z.lt_le_trans with (2 ^ 53 * 2 ^ (e' - lo)); [apply Z.mul_lt_mono_pos_r; lia|].
        rewrite <- !Z.pow_add_r by lia. apply Z.pow_le_mono_r; lia. }
  destruct Cs as [Neg|[(k & Gk)|(Ne & Sm)]].
  - destruct (nearest_multiple M 0 St N HS D) as (A0 & _).
    assert (G * T < 0) by (apply Z.mul_neg_pos; lia). split; [lia|]. intros. lia.
  - rewrite Gk. replace (k * 2 ^ (e - lo) * T) with (k * St) by (unfold St; ring).
    destruct (nearest_multiple M k St N HS D) as (A0 & A1). split; auto.
    intros Eq X. apply Es, Ev. apply A1; auto. intros ->. apply (NE X). exact Gk.
  - destruct C as [C|(C1 & C2)]; [contradiction|].
    destruct (nearest_multiple M (2 ^ 52) St N HS D) as (A0 & _).
    assert (G * T < 2 ^ 52 * St).
    { unfold St. rewrite Z.mul_assoc. apply Z.mul_lt_mono_pos_r; lia. }
    split; [lia|]. intros. lia.
Qed.

(* the smallest number that is rounded to infinity, in units: half a step above
   the largest double *)
Lemma round_all (s : bool) m ex l T N lo : 0 <= m -> 0 < T -> lo <= -1074 ->
  inb (shr_record_of_loc m l) (2 ^ (ex - lo) * T) N ->
  lo <= ex -> ex <= fexp 53 1024 (Zd m + ex) ->
  let r := binary_round_aux 53 1024 s m ex l in
  (N < (2 ^ 54 - 1) * (2 ^ (970 - lo) * T) -> rounds_to ((if s then -1 else 1) * N) (T * 2 ^ (-1074 - lo)) r) /\
  ((2 ^ 54 - 1) * (2 ^ (970 - lo) * T) <= N -> r = S754_infinity s).
Proof.
  intros Hm HT Hl B Hlo Hex r.
  destruct (round_aux_top s m ex l T N lo Hm HT B Hlo Hex) as (M & HM & C & D & Ev & R & RI). fold r in R, RI. clearbody r.
  rewrite fexp_max in *. remember (Z.max (Zd m + ex - 53) (-1074)) as e1 eqn:E1 in *.
  assert (P : 0 < 2 ^ (ex - lo) * T) by (apply Z.mul_pos_pos; lia).
  pose proof (inb_lower m l _ N P B) as Lo.
  assert (N0 : 0 <= N) by (eapply Z.le_trans; [|exact Lo]; apply Z.mul_nonneg_nonneg; lia).
  assert (LOW : e1 = -1074 \/ 2 ^ 52 * (2 ^ (e1 - lo) * T) <= N).
  { destruct (Z.eq_dec e1 (-1074)) as [|Ne]; [now left|right].
    eapply Z.le_trans; [|exact Lo].
    assert (m <> 0) by (intros Z0; rewrite Z0, Zd_0 in E1; lia).
    destruct (Zd_bounds m) as (_ & L & _); [lia|].
    rewrite !Z.mul_assoc. apply Z.mul_le_mono_nonneg_r; [lia|].
    rewrite <- Z.pow_add_r by lia. apply Z.le_trans with (2 ^ (Zd m - 1) * 2 ^ (ex - lo)).
    - rewrite <- Z.pow_add_r by lia. apply Z.pow_le_mono_r; lia.
    - apply Z.mul_le_mono_nonneg_r; lia. }
  set (S := 2 ^ (970 - lo) * T) in *. assert (HS : 0 < S) by (apply Z.mul_pos_pos; lia).
  assert (BIG : forall k, 0 <= k -> e1 = 970 + k -> 2 ^ (e1 - lo) * T = 2 ^ k * S).
  { intros k Hk ->. unfold S. rewrite Z.mul_assoc, <- Z.pow_add_r by lia. do 2 f_equal. lia. }
  destruct (Z.le_gt_cases 972 e1) as [L972|L972].
  - (* far beyond *)
    assert (2 ^ 54 * S <= N).
    { destruct LOW as [|LOW]; [lia|]. rewrite (BIG (e1 - 970)) in LOW by lia. eapply Z.le_trans; [|exact LOW].
      assert (H4 : 4 <= 2 ^ (e1 - 970)). { change 4 with (2 ^ 2). apply Z.pow_le_mono_r; lia. } revert H4. generalize (2 ^ (e1 - 970)). intros q Hq. clear - Hq HS. nia. }
    split; [lia|]. intros _. apply RI. now left.
  - destruct (Z.eq_dec e1 971) as [E971|N971].
    + rewrite (BIG 1) in D, Ev by lia. change (2 ^ 1) with 2 in D, Ev.
      destruct (Z.eq_dec M (2 ^ 53)) as [EM|NM].
      * assert ((2 ^ 54 - 1) * S <= N) by (rewrite EM in D; lia). split; [lia|]. intros _. apply RI. right. lia.
      * assert (NN : N < (2 ^ 54 - 1) * S).
        { destruct (Z.eq_dec M (2 ^ 53 - 1)) as [EM|NM2]; [|nia].
          destruct (Z.lt_ge_cases N ((2 ^ 54 - 1) * S)) as [|G]; [assumption|]. exfalso.
          rewrite EM in D, Ev. assert (X : Z.even (2 ^ 53 - 1) = true) by (apply Ev; lia). discriminate X. }
        split; [|intros; lia]. intros _. rewrite (R ltac:(clear - L972; lia) ltac:(intros X; contradiction)).
        apply fl_nearest_top; [exact N0|exact HT|exact Hl|exact HM|clear - E971; lia|intros X; contradiction| | |].
        -- right. split; [destruct C as [C|C]; [exfalso; clear - C E971; lia|exact C]|]. destruct LOW as [X|X]; [exfalso; clear - X E971; lia|exact X].
        -- rewrite (BIG 1) by (clear - E971; lia). exact D.
        -- rewrite (BIG 1) by (clear - E971; lia). exact Ev.
    + assert (NN : N < (2 ^ 54 - 1) * S).
      { assert (H0 : 2 ^ (e1 - lo) * T <= S).
        { unfold S. apply Z.mul_le_mono_nonneg_r; [lia|]. apply Z.pow_le_mono_r; lia. }
        assert (H1 : 0 < 2 ^ (e1 - lo) * T) by (apply Z.mul_pos_pos; lia). clear - D H0 H1 HM HS. revert D H0 H1. generalize (2 ^ (e1 - lo) * T). intros q D H0 H1. nia. }
      assert (E970 : -1074 <= e1 <= 970) by (clear - E1 L972 N971; lia).
      split; [|intros; lia]. intros _. rewrite (R ltac:(clear - E970; lia) ltac:(clear - E970; lia)).
      apply fl_nearest_top; [exact N0|exact HT|exact Hl|exact HM|clear - E970; lia|clear - E970; lia| |exact D|exact Ev].
      destruct C as [C|C]; [now left|]. destruct LOW as [X|X]; [now left|right; split; assumption].
Qed.


Definition sign_of (x : float) : bool := match x with S754_zero s | S754_infinity s | S754_finite s _ _ => s | S754_nan => false end.

Lemma f_mul_all x y : float_wf x -> finite x -> float_wf y -> finite y ->
  (Z.abs (units x * units y) < too_large * unit -> rounds_to (units x * units y) unit (f_mul x y)) /\
  (too_large * unit <= Z.abs (units x * units y) -> f_mul x y = S754_infinity (xorb (sign_of x) (sign_of y))).
Proof.
  intros Wx Fx Wy Fy. assert (PU : 0 < unit) by (unfold unit; lia). assert (PL : 0 < too_large) by reflexivity.
  assert (PP : 0 < too_large * unit) by (now apply Z.mul_pos_pos).
  destruct x as [s|s| |s m e]; cbn [finite] in Fx; try contradiction;
  destruct y as [t|t| |t m' e']; cbn [finite] in Fy; try contradiction; unfold f_mul; cbn [SFmul sign_of].
  - split; [intros _; apply rounds_exact; auto; exact I || reflexivity|]. cbn [units]. rewrite Z.mul_0_l. intros X. exfalso. apply (Z.lt_irrefl 0). eapply Z.lt_le_trans; [exact PP|exact X].
  - split; [intros _; apply rounds_exact; auto; exact I || reflexivity|]. cbn [units]. rewrite Z.mul_0_l. intros X. exfalso. apply (Z.lt_irrefl 0). eapply Z.lt_le_trans; [exact PP|exact X].
  - split; [intros _; apply rounds_exact; [exact PU|reflexivity|exact I|cbn [units]; ring]|]. cbn [units]. rewrite Z.mul_0_r. intros X. exfalso. apply (Z.lt_irrefl 0). eapply Z.lt_le_trans; [exact PP|exact X].
  - pose proof (proj1 (bounded_spec _ _) Wx) as Bx. pose proof (proj1 (bounded_spec _ _) Wy) as By.
    assert (E : Z.abs (units (S754_finite s m e) * units (S754_finite t m' e')) = Z.pos m * Z.pos m' * (2 ^ (e + e' - -2148) * 1)).
    { cbn [units]. replace (e + e' - -2148) with ((e + 1074) + (e' + 1074)) by lia. rewrite (Z.pow_add_r 2 (e + 1074) (e' + 1074)) by lia.
      rewrite !Z.abs_mul. rewrite (Z.abs_eq (2 ^ (e + 1074))), (Z.abs_eq (2 ^ (e' + 1074))) by (apply Z.pow_nonneg; lia).
      destruct s, t; cbn [Z.abs]; ring. }
    assert (ES : units (S754_finite s m e) * units (S754_finite t m' e') =
       (if xorb s t then -1 else 1) * (Z.pos m * Z.pos m' * (2 ^ (e + e' - -2148) * 1))).
    { cbn [units]. replace (e + e' - -2148) with ((e + 1074) + (e' + 1074)) by lia. rewrite (Z.pow_add_r 2 (e + 1074) (e' + 1074)) by lia.
      destruct s, t; cbn [xorb]; ring. }
    rewrite E, ES.
    pose proof (Zd_mul (Z.pos m) (Z.pos m') ltac:(lia) ltac:(lia)) as Dm.
    assert (N1 : 2 ^ 52 <= Z.pos m -> 53 <= Zd (Z.pos m)) by (intros; apply Zd_ge; [exact H|lia]).
    assert (N2 : 2 ^ 52 <= Z.pos m' -> 53 <= Zd (Z.pos m')) by (intros; apply Zd_ge; [exact H|lia]).
    rewrite Pos2Z.inj_mul.
    destruct (round_all (xorb s t) (Z.pos m * Z.pos m') (e + e') loc_Exact 1 (Z.pos m * Z.pos m' * (2 ^ (e + e' - -2148) * 1)) (-2148)) as (R1 & R2);
      [lia|lia|lia|apply inb_exact|lia|rewrite fexp_max; lia|].
    replace (too_large * unit) with ((2 ^ 54 - 1) * (2 ^ (970 - -2148) * 1)).
    2:{ unfold too_large, unit. rewrite Z.mul_1_r, <- Z.mul_assoc, <- Z.pow_add_r by lia. reflexivity. }
    replace unit with (1 * 2 ^ (-1074 - -2148)) by (unfold unit; rewrite Z.mul_1_l; f_equal).
    split; [exact R1|exact R2].
Qed.
