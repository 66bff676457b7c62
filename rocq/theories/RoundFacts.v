(* The SpecFloat operations round correctly (integer proofs). *)
From Coq Require Import ZArith List Bool Lia ZifyBool ZifyNat.
From Verif Require Import Py PyFloat IbmFloat PyFacts Spec_Ibm FloatFacts.
Import ListNotations.
Open Scope Z_scope.

(* The number N / D lies where the record says, one mantissa step being
   worth T (so that the record is worth between m * T / D and (m+1) * T / D) *)
Definition inb (rec : shr_record) (T N : Z) : Prop :=
  let m := shr_m rec in
  match shr_r rec, shr_s rec with
  | false, false => N = m * T
  | false, true => m * T < N /\ 2 * N < (2 * m + 1) * T
  | true, false => 2 * N = (2 * m + 1) * T
  | true, true => (2 * m + 1) * T < 2 * N /\ N < (m + 1) * T
  end.

Lemma shr_1_m rec : 0 <= shr_m rec -> shr_m (shr_1 rec) = shr_m rec / 2.
Proof.
  destruct rec as [m r s]; cbn [shr_m]. intros H. destruct m as [|p|p]; [reflexivity| |lia].
  destruct p as [p|p|]; cbn [shr_1 shr_m].
  - rewrite Pos2Z.inj_xI. rewrite Z.mul_comm, Z.div_add_l by lia. cbn. lia.
  - rewrite Pos2Z.inj_xO. rewrite Z.mul_comm, Z.div_mul by lia. lia.
  - reflexivity.
Qed.

Lemma shr_1_inb rec T N : 0 <= shr_m rec -> 0 < T -> inb rec T N -> inb (shr_1 rec) (2 * T) N.
Proof.
  destruct rec as [m r s]; unfold inb; cbn [shr_m shr_r shr_s]. intros H HT B.
  destruct m as [|p|p]; [|destruct p as [p|p|]|lia]; cbn [shr_1 shr_m shr_r shr_s];
    try rewrite Pos2Z.inj_xI in B; try rewrite Pos2Z.inj_xO in B;
    destruct r, s; cbn [orb]; lia.
Qed.

Lemma shr_iter_inb n : forall rec T N, 0 <= shr_m rec -> 0 < T -> inb rec T N ->
  inb (niter shr_1 n rec) (2 ^ Z.of_nat n * T) N /\ shr_m (niter shr_1 n rec) = shr_m rec / 2 ^ Z.of_nat n.
Proof.
  induction n as [|n IH]; intros rec T N H HT B.
  - cbn [niter]. change (Z.of_nat 0) with 0. rewrite Z.pow_0_r, Z.mul_1_l, Z.div_1_r. auto.
  - cbn [niter].
    assert (H1 : shr_m (shr_1 rec) = shr_m rec / 2) by (apply shr_1_m; auto).
    assert (0 <= shr_m (shr_1 rec)) by (rewrite H1; apply Z.div_pos; lia).
    destruct (IH (shr_1 rec) (2 * T) N) as (A & C); [auto|lia|apply shr_1_inb; auto|].
    rewrite Nat2Z.inj_succ, Z.pow_succ_r by lia. split.
    + replace (2 * 2 ^ Z.of_nat n * T) with (2 ^ Z.of_nat n * (2 * T)) by ring. exact A.
    + rewrite C, H1. rewrite Z.div_div by lia. reflexivity.
Qed.

Lemma shr_inb m l e k T N : 0 <= m -> 0 <= k -> 0 < T -> inb (shr_record_of_loc m l) T N ->
  exists rec, shr (shr_record_of_loc m l) e k = (rec, e + k) /\
    inb rec (2 ^ k * T) N /\ shr_m rec = m / 2 ^ k.
Proof.
  intros Hm Hk HT B.
  assert (SM : shr_m (shr_record_of_loc m l) = m) by (destruct l as [|[]]; reflexivity).
  destruct k as [|p|p]; [| |lia].
  - exists (shr_record_of_loc m l). cbn [shr]. rewrite Z.add_0_r. split; auto.
    rewrite Z.pow_0_r, Z.mul_1_l, Z.div_1_r. auto.
  - exists (niter shr_1 (Pos.to_nat p) (shr_record_of_loc m l)). cbn [shr].
    rewrite iter_pos_nat. split; auto.
    destruct (shr_iter_inb (Pos.to_nat p) (shr_record_of_loc m l) T N) as (A & C); auto; [lia|].
    rewrite positive_nat_Z in A, C. now rewrite SM in C.
Qed.

(* round to nearest even on the record *)
Lemma rne_spec rec T N : 0 <= shr_m rec -> 0 < T -> inb rec T N ->
  let M := round_nearest_even (shr_m rec) (loc_of_shr_record rec) in
  (M = shr_m rec \/ M = shr_m rec + 1) /\ 2 * Z.abs (M * T - N) <= T /\
  (2 * Z.abs (M * T - N) = T -> Z.even M = true).
Proof.
  destruct rec as [m r s]; unfold inb; cbn [shr_m shr_r shr_s]. intros Hm HT B.
  destruct r, s; cbn [loc_of_shr_record round_nearest_even]; cbv iota zeta.
  - split; [right; reflexivity|]. split; lia.
  - destruct (Z.even m) eqn:Ev.
    + split; [now left|]. split; [lia|auto].
    + split; [now right|]. split; [lia|]. intros _. rewrite Z.even_add, Ev. reflexivity.
  - split; [now left|]. split; [lia|]. lia.
  - split; [now left|]. split; lia.
Qed.

(* the nearest multiple of T *)
Lemma nearest_multiple M k T N : 0 < T -> 2 * Z.abs (M * T - N) <= T ->
  Z.abs (M * T - N) <= Z.abs (k * T - N) /\
  (Z.abs (M * T - N) = Z.abs (k * T - N) -> k <> M -> 2 * Z.abs (M * T - N) = T).
Proof.
  intros HT H.
  destruct (Z.eq_dec k M) as [->|Ne]; [split; [lia|congruence]|].
  assert (K : T <= Z.abs (k * T - M * T)).
  { rewrite <- Z.mul_sub_distr_r, Z.abs_mul, (Z.abs_eq T) by lia.
    assert (1 <= Z.abs (k - M)) by lia. nia. }
  split; lia.
Qed.

Lemma fexp_max x : fexp 53 1024 x = Z.max (x - 53) (-1074).
Proof. reflexivity. Qed.

Definition Zd (m : Z) : Z := Zdigits2 m.
Lemma Zd_0 : Zd 0 = 0. Proof. reflexivity. Qed.
Lemma Zd_bounds m : 0 < m -> 1 <= Zd m /\ 2 ^ (Zd m - 1) <= m < 2 ^ Zd m.
Proof. intros H. destruct m as [|p|p]; [lia| |lia]. apply (digits_bounds p). Qed.
Lemma Zd_nonneg m : 0 <= m -> 0 <= Zd m.
Proof. intros H. destruct (Z.eq_dec m 0) as [->|]; [rewrite Zd_0; lia|]. pose proof (Zd_bounds m). lia. Qed.
Lemma Zd_lt m n : 0 <= m -> 0 <= n -> m < 2 ^ n -> Zd m <= n.
Proof.
  intros H Hn L. destruct (Z.eq_dec m 0) as [->|]; [rewrite Zd_0; lia|].
  destruct (Zd_bounds m) as (A & B & _); [lia|].
  assert (Zd m - 1 < n); [|lia]. apply (Z.pow_lt_mono_r_iff 2); lia.
Qed.
Lemma Zd_ge m n : 2 ^ (n - 1) <= m -> 1 <= n -> n <= Zd m.
Proof.
  intros L Hn. assert (0 < 2 ^ (n - 1)) by lia. destruct (Zd_bounds m) as (A & _ & B); [lia|].
  assert (n - 1 < Zd m); [|lia]. apply (Z.pow_lt_mono_r_iff 2); lia.
Qed.

(* A double written with mantissa M <= 2^53 at exponent e *)
Definition fl (s : bool) (M e : Z) : float :=
  match M with
  | Zpos p => if M =? 2 ^ 53 then S754_finite s p52 (e + 1) else S754_finite s p e
  | _ => S754_zero s
  end.

Lemma fl_wf s M e : 0 <= M <= 2 ^ 53 -> -1074 <= e <= 970 -> (e = -1074 \/ 2 ^ 52 <= M) ->
  float_wf (fl s M e) /\ finite (fl s M e) /\
  units (fl s M e) = (if s then -1 else 1) * (M * 2 ^ (e + 1074)) /\
  (Z.even M = true -> even_significand (fl s M e)).
Proof.
  intros HM He C. unfold fl, float_wf. destruct M as [|p|p]; [| |lia].
  - cbn. repeat split; auto; destruct s; reflexivity.
  - destruct (Z.pos p =? 2 ^ 53) eqn:E.
    + assert (Z.pos p = 2 ^ 53) as -> by lia. cbn [valid_binary finite even_significand].
      split; [apply bounded_normal; rewrite ?p52_eq; lia|]. split; auto. split; [|reflexivity].
      cbn [units]. rewrite p52_eq. f_equal. rewrite <- !Z.pow_add_r by lia. f_equal. lia.
    + cbn [valid_binary finite even_significand]. split; [apply bounded_spec; lia|]. auto.
Qed.

(* --- the rounding function --- *)

Lemma round_aux s m ex l T N lo : 0 <= m -> 0 < T -> inb (shr_record_of_loc m l) (2 ^ (ex - lo) * T) N ->
  lo <= ex -> ex <= fexp 53 1024 (Zd m + ex) ->
  let e1 := fexp 53 1024 (Zd m + ex) in
  exists M, 0 <= M <= 2 ^ 53 /\ (e1 = -1074 \/ 2 ^ 52 <= M) /\
    m / 2 ^ (e1 - ex) <= M <= m / 2 ^ (e1 - ex) + 1 /\
    2 * Z.abs (M * (2 ^ (e1 - lo) * T) - N) <= 2 ^ (e1 - lo) * T /\
    (2 * Z.abs (M * (2 ^ (e1 - lo) * T) - N) = 2 ^ (e1 - lo) * T -> Z.even M = true) /\
    (e1 <= 970 -> binary_round_aux 53 1024 s m ex l = fl s M e1).
Proof.
  intros Hm HT B Hlo Hex e1.
  assert (E1 : e1 = Z.max (Zd m + ex - 53) (-1074)) by apply fexp_max.
  assert (Hex' : ex <= e1) by exact Hex.
  assert (P : 0 < 2 ^ (ex - lo) * T) by (apply Z.mul_pos_pos; lia).
  destruct (shr_inb m l ex (e1 - ex) _ N Hm ltac:(lia) P B) as (rec & Sh & B' & M1).
  rewrite Z.mul_assoc, <- Z.pow_add_r in B' by lia.
  replace (e1 - ex + (ex - lo)) with (e1 - lo) in B' by lia.
  assert (P1 : 0 < 2 ^ (e1 - lo) * T) by (apply Z.mul_pos_pos; lia).
  assert (R0 : 0 <= shr_m rec) by (rewrite M1; apply Z.div_pos; lia).
  assert (R1 : shr_m rec < 2 ^ 53).
  { rewrite M1. apply Z.div_lt_upper_bound; [lia|]. rewrite <- Z.pow_add_r by lia.
    destruct (Z.eq_dec m 0) as [->|N0]; [lia|]. destruct (Zd_bounds m) as (_ & _ & U); [lia|].
    eapply Z.lt_le_trans; [exact U|]. apply Z.pow_le_mono_r; lia. }
  assert (R2 : e1 = -1074 \/ 2 ^ 52 <= shr_m rec).
  { destruct (Z.eq_dec e1 (-1074)) as [|Ne]; [now left|right].
    assert (m <> 0) by (intros ->; rewrite Zd_0 in *; lia).
    rewrite M1. apply Z.div_le_lower_bound; [lia|]. rewrite <- Z.pow_add_r by lia.
    destruct (Zd_bounds m) as (_ & L & _); [lia|].
    replace (e1 - ex + 52) with (Zd m - 1) by lia. exact L. }
  destruct (rne_spec rec _ N R0 P1 B') as (C & D & Ev).
  set (M := round_nearest_even (shr_m rec) (loc_of_shr_record rec)) in *.
  exists M. split; [lia|]. split; [lia|]. split; [rewrite <- M1; lia|]. split; auto. split; auto.
  intros He. unfold binary_round_aux, shr_fexp at 1. fold (Zd m).
  change (fexp 53 1024 (Zd m + ex)) with e1. rewrite Sh. fold M.
  replace (ex + (e1 - ex)) with e1 by lia.
  clearbody M. clear Sh B B' D Ev. unfold shr_fexp. fold (Zd M).
  destruct (Z.eq_dec M (2 ^ 53)) as [->|NM].
  - change (Zd (2 ^ 53)) with 54. rewrite fexp_max. replace (Z.max (54 + e1 - 53) (-1074) - e1) with 1 by lia.
    change (shr_record_of_loc (2 ^ 53) loc_Exact) with (Build_shr_record (2 ^ 52 * 2 ^ 1) false false).
    rewrite shr_exact by lia. cbn [shr_m]. change (2 ^ 52) with (Z.pos p52).
    unfold fl. change (2 ^ 53) with 9007199254740992. cbn [Z.eqb]. rewrite Pos.eqb_refl.
    replace (e1 + 1 <=? 1024 - 53) with true by lia. reflexivity.
  - assert (HM : 0 <= M < 2 ^ 53) by lia.
    rewrite fexp_max. rewrite shr_zero.
    2: { pose proof (Zd_lt M 53 ltac:(lia) ltac:(lia) ltac:(lia)). lia. }
    destruct M as [|p|p]; [reflexivity| |lia]. cbn [shr_record_of_loc shr_m fl].
    replace (Z.pos p =? 2 ^ 53) with false by lia. replace (e1 <=? 1024 - 53) with true by lia. reflexivity.
Qed.

Lemma fl_nearest (s : bool) M e T N lo : 0 <= N -> 0 < T -> lo <= -1074 ->
  0 <= M <= 2 ^ 53 -> -1074 <= e <= 970 -> (e = -1074 \/ 2 ^ 52 <= M /\ 2 ^ 52 * (2 ^ (e - lo) * T) <= N) ->
  2 * Z.abs (M * (2 ^ (e - lo) * T) - N) <= 2 ^ (e - lo) * T ->
  (2 * Z.abs (M * (2 ^ (e - lo) * T) - N) = 2 ^ (e - lo) * T -> Z.even M = true) ->
  rounds_to ((if s then -1 else 1) * N) (T * 2 ^ (-1074 - lo)) (fl s M e).
Proof.
  intros HN HT Hlo HM He C D Ev.
  destruct (fl_wf s M e HM He ltac:(tauto)) as (Wf & F & U & Es).
  split; auto. split; auto. intros g Wg Fg. rewrite U.
  set (sg := if s then -1 else 1). set (K := 2 ^ (-1074 - lo)). assert (HK : 0 < K) by (unfold K; lia).
  set (St := 2 ^ (e - lo) * T) in *. assert (HS : 0 < St) by (apply Z.mul_pos_pos; lia).
  assert (SK : forall x, -1074 <= x -> 2 ^ (x + 1074) * K = 2 ^ (x - lo)).
  { intros x Hx. unfold K. rewrite <- Z.pow_add_r by lia. f_equal. lia. }
  assert (A : Z.abs (sg * (M * 2 ^ (e + 1074)) * (T * K) - sg * N) = Z.abs (M * St - N)).
  { replace (sg * (M * 2 ^ (e + 1074)) * (T * K) - sg * N) with (sg * (M * (2 ^ (e + 1074) * K * T) - N)) by ring.
    rewrite SK by lia. fold St. unfold sg. destruct s; lia. }
  rewrite A.
  (* g against the same number, folded to the non-negative side *)
  set (G := sg * units g * K). (* in lo units *)
  assert (Bg : Z.abs (units g * (T * K) - sg * N) = Z.abs (G * T - N)).
  { unfold G, sg. destruct s.
    - replace (-1 * units g * K * T - N) with (- (units g * (T * K) - -1 * N)) by ring. lia.
    - f_equal. ring. }
  rewrite Bg.
  assert (NE : units g <> sg * (M * 2 ^ (e + 1074)) -> G <> M * 2 ^ (e - lo)).
  { intros X Y. apply X. unfold G in Y. rewrite <- SK in Y by lia.
    assert (Y' : sg * units g = M * 2 ^ (e + 1074)) by (apply (Z.mul_cancel_r _ _ K); lia).
    rewrite <- Y'. unfold sg. destruct s; lia. }
  (* three cases for g *)
  assert (Cs : G < 0 \/ (exists k, G = k * 2 ^ (e - lo)) \/ (e <> -1074 /\ 0 <= G < 2 ^ 52 * 2 ^ (e - lo))).
  { destruct (Z.lt_ge_cases G 0) as [|G0]; [now left|right].
    destruct g as [t|t| |t m' e']; cbn [finite] in Fg; try contradiction.
    - left. exists 0. unfold G. cbn [units]. ring.
    - pose proof (proj1 (bounded_spec _ _) Wg) as Bd.
      assert (GE : Z.abs G = Z.pos m' * 2 ^ (e' - lo)).
      { unfold G. rewrite !Z.abs_mul. cbn [units]. rewrite !Z.abs_mul, (Z.abs_eq K), (Z.abs_eq (2 ^ _)), (Z.abs_eq (Z.pos m')) by lia.
        rewrite <- SK by lia. unfold sg. destruct s, t; cbn [Z.abs]; ring. }
      rewrite Z.abs_eq in GE by lia. destruct (Z.le_gt_cases e e') as [L|L].
      + left. exists (Z.pos m' * 2 ^ (e' - e)). rewrite GE, <- Z.mul_assoc, <- Z.pow_add_r by lia. do 2 f_equal. lia.
      + right. split; [lia|]. split; [lia|]. rewrite GE.
        apply Z.lt_le_trans with (2 ^ 53 * 2 ^ (e' - lo)); [apply Z.mul_lt_mono_pos_r; lia|].
        rewrite <- !Z.pow_add_r by lia. apply Z.pow_le_mono_r; lia. }
  destruct Cs as [Neg|[(k & Gk)|(Ne & Sm)]].
  - (* wrong side: 0 is a multiple of the step and nearer *)
    destruct (nearest_multiple M 0 St N HS D) as (A0 & _).
    assert (G * T < 0) by (apply Z.mul_neg_pos; lia). split; [lia|]. intros. lia.
  - rewrite Gk. replace (k * 2 ^ (e - lo) * T) with (k * St) by (unfold St; ring).
    destruct (nearest_multiple M k St N HS D) as (A0 & A1). split; auto.
    intros Eq X. apply Es, Ev. apply A1; auto. intros ->. apply (NE X). exact Gk.
  - destruct C as [C|(C1 & C2)]; [contradiction|].
    destruct (nearest_multiple M (2 ^ 52) St N HS D) as (A0 & _).
    assert (G * T < 2 ^ 52 * St).
    { unfold St. rewrite Z.mul_assoc. apply Z.mul_lt_mono_pos_r; lia. }
    split; [lia|]. intros. lia.
Qed.

Lemma inb_lower m l T N : 0 < T -> inb (shr_record_of_loc m l) T N -> m * T <= N.
Proof.
  intros HT. unfold inb. destruct l as [|[]]; cbn [shr_record_of_loc shr_m shr_r shr_s]; lia.
Qed.

Lemma round_aux_nearest (s : bool) m ex l T N lo : 0 <= m -> 0 < T -> lo <= -1074 ->
  inb (shr_record_of_loc m l) (2 ^ (ex - lo) * T) N ->
  lo <= ex -> ex <= fexp 53 1024 (Zd m + ex) -> fexp 53 1024 (Zd m + ex) <= 970 ->
  rounds_to ((if s then -1 else 1) * N) (T * 2 ^ (-1074 - lo)) (binary_round_aux 53 1024 s m ex l).
Proof.
  intros Hm HT Hl B Hlo Hex He.
  destruct (round_aux s m ex l T N lo Hm HT B Hlo Hex) as (M & HM & C & D0 & D & Ev & R).
  rewrite (R He). rewrite fexp_max in *. remember (Z.max (Zd m + ex - 53) (-1074)) as e1 eqn:E1 in *.
  assert (P : 0 < 2 ^ (ex - lo) * T) by (apply Z.mul_pos_pos; lia).
  pose proof (inb_lower m l _ N P B) as Lo.
  assert (0 <= m * (2 ^ (ex - lo) * T)) by (apply Z.mul_nonneg_nonneg; lia).
  apply fl_nearest; auto; try lia.
  destruct (Z.eq_dec e1 (-1074)) as [|Ne]; [now left|right]. split; [lia|].
  eapply Z.le_trans; [|exact Lo].
  assert (m <> 0) by (intros Z0; rewrite Z0, Zd_0 in E1; lia).
  destruct (Zd_bounds m) as (_ & L & _); [lia|].
  rewrite !Z.mul_assoc. apply Z.mul_le_mono_nonneg_r; [lia|].
  rewrite <- Z.pow_add_r by lia. apply Z.le_trans with (2 ^ (Zd m - 1) * 2 ^ (ex - lo)).
  - rewrite <- Z.pow_add_r by lia. apply Z.pow_le_mono_r; lia.
  - apply Z.mul_le_mono_nonneg_r; lia.
Qed.

Lemma rounds_exact N D r : 0 < D -> float_wf r -> finite r -> units r * D = N -> rounds_to N D r.
Proof.
  intros HD W F E. split; auto. split; auto. intros g Wg Fg. rewrite E, Z.sub_diag. split; [lia|].
  intros A B. exfalso. apply B. apply (Z.mul_cancel_r _ _ D); lia.
Qed.

Lemma rounds_scale c N D r : 0 < c -> rounds_to (c * N) (c * D) r -> rounds_to N D r.
Proof.
  intros Hc (W & F & H). split; auto. split; auto. intros g Wg Fg. destruct (H g Wg Fg) as (A & B).
  assert (S : forall u, Z.abs (u * (c * D) - c * N) = c * Z.abs (u * D - N)).
  { intros u. replace (u * (c * D) - c * N) with (c * (u * D - N)) by ring. rewrite Z.abs_mul. lia. }
  rewrite !S in A, B. split.
  - apply Z.mul_le_mono_pos_l in A; auto.
  - intros E. apply B. now rewrite E.
Qed.

Lemma inb_exact m T : inb (shr_record_of_loc m loc_Exact) T (m * T).
Proof. reflexivity. Qed.

Lemma binary_round_nearest (s : bool) p e lo : lo <= e -> lo <= -1074 -> Zd (Z.pos p) + e <= 1023 ->
  rounds_to ((if s then -1 else 1) * (Z.pos p * 2 ^ (e - lo))) (2 ^ (-1074 - lo)) (binary_round 53 1024 s p e).
Proof.
  intros H1 H2 H3. unfold binary_round, shl_align. change (Z.pos (digits2_pos p)) with (Zd (Z.pos p)).
  set (f := fexp 53 1024 (Zd (Z.pos p) + e)). assert (Ef : f = Z.max (Zd (Z.pos p) + e - 53) (-1074)) by apply fexp_max.
  rewrite <- (Z.mul_1_l (2 ^ (-1074 - lo))).
  destruct (f - e) as [|k|k] eqn:Ek.
  - apply round_aux_nearest; [lia|lia|lia|rewrite Z.mul_1_r; apply inb_exact|lia|fold f; lia|fold f; lia].
  - apply round_aux_nearest; [lia|lia|lia|rewrite Z.mul_1_r; apply inb_exact|lia|fold f; lia|fold f; lia].
  - assert (Em : Z.pos (shift_pos k p) = Z.pos p * 2 ^ (e - f)) by (rewrite shift_pos_spec; do 2 f_equal; lia).
    assert (Ed : Zd (Z.pos (shift_pos k p)) = Zd (Z.pos p) + (e - f)) by (apply digits_scale; [lia|exact Em]).
    assert (Ef' : fexp 53 1024 (Zd (Z.pos (shift_pos k p)) + f) = f) by (rewrite Ed, fexp_max; lia).
    replace (Z.pos p * 2 ^ (e - lo)) with (Z.pos (shift_pos k p) * (2 ^ (f - lo) * 1)).
    2: { rewrite Em, Z.mul_1_r, <- Z.mul_assoc, <- Z.pow_add_r by lia. do 2 f_equal. lia. }
    apply round_aux_nearest; [lia|lia|lia|apply inb_exact|lia|lia|lia].
Qed.

Lemma Zd_pow_bound m e b : 0 < m -> m * 2 ^ e < 2 ^ b -> 0 <= e -> 0 <= b -> Zd m + e <= b.
Proof.
  intros Hm H He Hb. destruct (Zd_bounds m Hm) as (A & B & _).
  assert (Zd m - 1 + e < b); [|lia]. apply (Z.pow_lt_mono_r_iff 2); [lia|lia|].
  eapply Z.le_lt_trans; [|exact H]. rewrite Z.pow_add_r by lia. apply Z.mul_le_mono_nonneg_r; lia.
Qed.

Lemma binary_normalize_nearest m e : -1074 <= e -> Z.abs m * 2 ^ (e + 1074) < 2 ^ (1023 + 1074) ->
  rounds_to (m * 2 ^ (e + 1074)) 1 (binary_normalize 53 1024 m e false).
Proof.
  intros He Hb. destruct m as [|p|p]; cbn [binary_normalize].
  - apply rounds_exact; [lia|reflexivity|exact I|reflexivity].
  - pose proof (Zd_pow_bound (Z.pos p) (e + 1074) (1023 + 1074) ltac:(lia) Hb ltac:(lia) ltac:(lia)).
    pose proof (binary_round_nearest false p e (-1074) He ltac:(lia) ltac:(lia)) as R.
    replace (e - -1074) with (e + 1074) in R by lia. rewrite Z.mul_1_l in R. exact R.
  - pose proof (Zd_pow_bound (Z.pos p) (e + 1074) (1023 + 1074) ltac:(lia) Hb ltac:(lia) ltac:(lia)).
    pose proof (binary_round_nearest true p e (-1074) He ltac:(lia) ltac:(lia)) as R.
    replace (e - -1074) with (e + 1074) in R by lia.
    replace (-1 * (Z.pos p * 2 ^ (e + 1074))) with (Z.neg p * 2 ^ (e + 1074)) in R.
    2: { rewrite <- Pos2Z.opp_pos. ring. } exact R.
Qed.

Lemma shl_align_spec m e ez : ez <= e -> Z.pos (fst (shl_align m e ez)) = Z.pos m * 2 ^ (e - ez).
Proof.
  intros H. unfold shl_align. destruct (ez - e) as [|k|k] eqn:E; cbn [fst].
  - replace (e - ez) with 0 by lia. lia.
  - lia.
  - rewrite shift_pos_spec. do 2 f_equal. lia.
Qed.

Lemma cond_Zopp_sign s z : cond_Zopp s z = (if s then -1 else 1) * z.
Proof. destruct s; cbn [cond_Zopp]; lia. Qed.

Lemma f_add_rounds x y : float_wf x -> finite x -> float_wf y -> finite y ->
  Z.abs (units x + units y) < 2 ^ (1023 + 1074) -> rounds_to (units x + units y) 1 (f_add x y).
Proof.
  intros Wx Fx Wy Fy B.
  destruct x as [s|s| |s m e]; cbn [finite] in Fx; try contradiction;
  destruct y as [t|t| |t m' e']; cbn [finite] in Fy; try contradiction; unfold f_add; cbn [SFadd].
  - destruct s, t; apply rounds_exact; try reflexivity; exact I.
  - apply rounds_exact; auto; cbn [units]; try lia; exact I.
  - apply rounds_exact; auto; cbn [units]; try lia; exact I.
  - pose proof (proj1 (bounded_spec _ _) Wx) as Bx. pose proof (proj1 (bounded_spec _ _) Wy) as By.
    set (ez := Z.min e e'). rewrite !cond_Zopp_sign, !shl_align_spec by (unfold ez; lia).
    set (sum := (if s then -1 else 1) * (Z.pos m * 2 ^ (e - ez)) + (if t then -1 else 1) * (Z.pos m' * 2 ^ (e' - ez))).
    assert (E : sum * 2 ^ (ez + 1074) = units (S754_finite s m e) + units (S754_finite t m' e')).
    { unfold sum. cbn [units]. rewrite Z.mul_add_distr_r, <- !Z.mul_assoc, <- !Z.pow_add_r by (unfold ez; lia).
      replace (e - ez + (ez + 1074)) with (e + 1074) by lia.
      replace (e' - ez + (ez + 1074)) with (e' + 1074) by lia. reflexivity. }
    rewrite <- E. apply binary_normalize_nearest; [unfold ez; lia|].
    rewrite <- E, Z.abs_mul, (Z.abs_eq (2 ^ _)) in B by (apply Z.pow_nonneg; lia). exact B.
Qed.

Lemma f_sub_add x y : f_sub x y = f_add x (SFopp y).
Proof.
  destruct x as [s|s| |s m e], y as [t|t| |t m' e']; try reflexivity.
  unfold f_sub, f_add. cbn [SFsub SFadd SFopp]. f_equal. destruct t; cbn [negb cond_Zopp]; lia.
Qed.

Lemma Zd_mul a b : 0 < a -> 0 < b -> Z.max (Zd a) (Zd b) <= Zd (a * b).
Proof.
  intros Ha Hb. assert (K : forall a b, 0 < a -> 0 < b -> Zd a <= Zd (a * b)).
  { clear. intros a b Ha Hb. destruct (Zd_bounds a Ha) as (A & B & _). apply Zd_ge; [nia|lia]. }
  pose proof (K a b Ha Hb). pose proof (K b a Hb Ha). rewrite Z.mul_comm in H0. lia.
Qed.

Lemma f_mul_rounds x y : float_wf x -> finite x -> float_wf y -> finite y ->
  Z.abs (units x * units y) < 2 ^ (1023 + 2148) -> rounds_to (units x * units y) unit (f_mul x y).
Proof.
  intros Wx Fx Wy Fy B. assert (PU : 0 < unit) by (unfold unit; lia).
  destruct x as [s|s| |s m e]; cbn [finite] in Fx; try contradiction;
  destruct y as [t|t| |t m' e']; cbn [finite] in Fy; try contradiction; unfold f_mul; cbn [SFmul].
  - apply rounds_exact; auto; exact I || reflexivity.
  - apply rounds_exact; auto; exact I || reflexivity.
  - apply rounds_exact; [exact PU|reflexivity|exact I|cbn [units]; ring].
  - pose proof (proj1 (bounded_spec _ _) Wx) as Bx. pose proof (proj1 (bounded_spec _ _) Wy) as By.
    assert (PM : 0 < Z.pos m * Z.pos m') by lia.
    assert (E : Z.abs (units (S754_finite s m e) * units (S754_finite t m' e')) = Z.pos m * Z.pos m' * 2 ^ (e + e' + 2148)).
    { cbn [units]. replace (e + e' + 2148) with ((e + 1074) + (e' + 1074)) by lia. rewrite (Z.pow_add_r 2 (e + 1074) (e' + 1074)) by lia.
      rewrite !Z.abs_mul. rewrite (Z.abs_eq (2 ^ (e + 1074))), (Z.abs_eq (2 ^ (e' + 1074))) by (apply Z.pow_nonneg; lia).
      destruct s, t; cbn [Z.abs]; ring. }
    assert (ES : units (S754_finite s m e) * units (S754_finite t m' e') =
       (if xorb s t then -1 else 1) * (Z.pos m * Z.pos m' * (2 ^ (e + e' - -2148) * 1))).
    { cbn [units]. replace (e + e' - -2148) with ((e + 1074) + (e' + 1074)) by lia. rewrite (Z.pow_add_r 2 (e + 1074) (e' + 1074)) by lia.
      destruct s, t; cbn [xorb]; ring. }
    rewrite E in B. rewrite ES.
    replace unit with (1 * 2 ^ (-1074 - -2148)) by (unfold unit; rewrite Z.mul_1_l; f_equal).
    pose proof (Zd_pow_bound _ _ _ PM B ltac:(lia) ltac:(lia)) as Db.
    pose proof (Zd_mul (Z.pos m) (Z.pos m') ltac:(lia) ltac:(lia)) as Dm.
    assert (N1 : 2 ^ 52 <= Z.pos m -> 53 <= Zd (Z.pos m)) by (intros; apply Zd_ge; [exact H|lia]).
    assert (N2 : 2 ^ 52 <= Z.pos m' -> 53 <= Zd (Z.pos m')) by (intros; apply Zd_ge; [exact H|lia]).
    rewrite Pos2Z.inj_mul.
    apply round_aux_nearest; [lia|lia|lia|apply inb_exact|lia|rewrite fexp_max; lia|rewrite fexp_max; lia].
Qed.

Lemma new_location_inb m2 q r P : 0 < m2 -> 0 <= r < m2 -> 0 < P ->
  inb (shr_record_of_loc q (new_location m2 r)) (P * m2) ((q * m2 + r) * P).
Proof.
  intros Hm Hr HP. unfold new_location, new_location_even, new_location_odd.
  assert (K : forall c, (if Zeq_bool r 0 then loc_Exact else c) = if r =? 0 then loc_Exact else c).
  { intros c. destruct (Zeq_bool r 0) eqn:A, (r =? 0) eqn:B; auto;
    [apply Zeq_bool_eq in A|apply Zeq_bool_neq in A]; lia. }
  destruct (Z.even m2) eqn:Ev.
  - rewrite K. destruct (r =? 0) eqn:R0.
    + unfold inb; cbn [shr_record_of_loc shr_m shr_r shr_s]. assert (r = 0) as -> by lia. ring.
    + unfold inb. destruct (Z.compare_spec (2 * r) m2) as [C|C|C]; cbn [shr_record_of_loc shr_m shr_r shr_s].
      * rewrite <- C. ring.
      * split; [nia|]. nia.
      * split; [nia|]. nia.
  - rewrite K. assert (Od : 2 * r <> m2).
    { intros C. rewrite <- C in Ev. rewrite Z.even_mul in Ev. discriminate. }
    destruct (r =? 0) eqn:R0.
    + unfold inb; cbn [shr_record_of_loc shr_m shr_r shr_s]. assert (r = 0) as -> by lia. ring.
    + unfold inb. destruct (Z.compare_spec (2 * r + 1) m2) as [C|C|C]; cbn [shr_record_of_loc shr_m shr_r shr_s].
      * split; nia.
      * split; nia.
      * assert (m2 < 2 * r) by lia. split; nia.
Qed.

Lemma f_div_rounds x y : float_wf x -> finite x -> float_wf y -> finite y -> units y <> 0 ->
  Z.abs (units x) < Z.abs (units y) * 2 ^ 1023 ->
  exists r, f_div x y = Ok r /\ rounds_to (units x * unit * Z.sgn (units y)) (Z.abs (units y)) r.
Proof.
  intros Wx Fx Wy Fy Ny B.
  destruct y as [t|t| |t m' e']; cbn [finite] in Fy; try contradiction.
  unfold f_div. cbn [f_is_zero]. eexists. split; [reflexivity|].
  pose proof (proj1 (bounded_spec _ _) Wy) as By.
  assert (PY : 0 < Z.pos m' * 2 ^ (e' + 1074)) by (apply Z.mul_pos_pos; lia).
  assert (AY : Z.abs (units (S754_finite t m' e')) = Z.pos m' * 2 ^ (e' + 1074)).
  { cbn [units]. destruct t; lia. }
  assert (SY : Z.sgn (units (S754_finite t m' e')) = if t then -1 else 1).
  { cbn [units]. destruct t; lia. }
  rewrite AY, SY in *.
  destruct x as [s|s| |s m e]; cbn [finite] in Fx; try contradiction; cbn [SFdiv].
  { apply rounds_exact; [exact PY|reflexivity|exact I|cbn [units]; ring]. }
  pose proof (proj1 (bounded_spec _ _) Wx) as Bx.
  assert (AX : Z.abs (units (S754_finite s m e)) = Z.pos m * 2 ^ (e + 1074)).
  { assert (0 < Z.pos m * 2 ^ (e + 1074)) by (apply Z.mul_pos_pos; lia). cbn [units]. destruct s; lia. }
  rewrite AX in B.
  unfold SFdiv_core_binary. fold (Zd (Z.pos m)) (Zd (Z.pos m')).
  set (d1 := Zd (Z.pos m)). set (d2 := Zd (Z.pos m')). rewrite fexp_max.
  set (ez := Z.min (Z.max (d1 + e - (d2 + e') - 53) (-1074)) (e - e')).
  assert (Hm' : match e - e' - ez with 0 => Z.pos m | Z.pos _ => Z.shiftl (Z.pos m) (e - e' - ez) | Z.neg _ => 0 end
    = Z.pos m * 2 ^ (e - e' - ez)).
  { assert (0 <= e - e' - ez) by (unfold ez; lia). destruct (e - e' - ez) eqn:Es; [rewrite Z.pow_0_r; lia| |lia].
    now rewrite Z.shiftl_mul_pow2 by lia. }
  rewrite Hm'. set (M := Z.pos m * 2 ^ (e - e' - ez)).
  pose proof (Z_div_mod M (Z.pos m') ltac:(lia)) as DM. destruct (Z.div_eucl M (Z.pos m')) as (q, r).
  destruct DM as (DM & Hr).
  assert (PMM : 0 < M) by (apply Z.mul_pos_pos; unfold ez; lia).
  assert (Hq : 0 <= q) by (clear -DM Hr PMM; nia).
  destruct (Zd_bounds (Z.pos m) ltac:(lia)) as (D1 & L1 & U1). destruct (Zd_bounds (Z.pos m') ltac:(lia)) as (D2 & L2 & U2).
  fold d1 in D1, L1, U1. fold d2 in D2, L2, U2.
  (* enough digits in the quotient *)
  assert (Dq : d1 + (e - e' - ez) - d2 <= Zd q).
  { destruct (Z.le_gt_cases (d1 + (e - e' - ez) - d2) 0); [pose proof (Zd_nonneg q Hq); lia|].
    apply Zd_ge; [|lia]. apply Z.lt_succ_r. apply (Z.mul_lt_mono_pos_r (Z.pos m')); [lia|].
    replace (Z.succ q * Z.pos m') with (Z.pos m' * q + Z.pos m') by ring.
    apply Z.le_lt_trans with M; [|lia].
    apply Z.le_trans with (2 ^ (d1 + (e - e' - ez) - d2 - 1) * 2 ^ d2); [apply Z.mul_le_mono_nonneg_l; lia|].
    rewrite <- Z.pow_add_r by lia. unfold M.
    replace (d1 + (e - e' - ez) - d2 - 1 + d2) with ((d1 - 1) + (e - e' - ez)) by lia.
    rewrite Z.pow_add_r by (unfold ez; lia). apply Z.mul_le_mono_nonneg_r; [apply Z.pow_nonneg; lia|lia]. }
  assert (Hez : -2148 <= ez) by (unfold ez; lia).
  pose proof (new_location_inb (Z.pos m') q r (2 ^ (ez - -2148)) ltac:(lia) Hr ltac:(lia)) as IB.
  assert (Eb : Zd q + ez <= 1023).
  { destruct (Z.eq_dec q 0) as [->|Nq]; [rewrite Zd_0 in *; unfold ez in *; lia|].
    destruct (Zd_bounds q ltac:(lia)) as (Q1 & Q2 & _).
    assert (Zd q - 1 + (ez + 2148) < 1023 + 2148); [|lia].
    apply (Z.pow_lt_mono_r_iff 2); [lia|lia|].
    apply (Z.mul_lt_mono_pos_r (Z.pos m')); [lia|].
    apply Z.le_lt_trans with (M * 2 ^ (ez + 2148)).
    - rewrite Z.pow_add_r by lia.
      apply Z.le_trans with (q * 2 ^ (ez + 2148) * Z.pos m').
      + apply Z.mul_le_mono_nonneg_r; [lia|]. apply Z.mul_le_mono_nonneg_r; [apply Z.pow_nonneg; lia|lia].
      + replace (q * 2 ^ (ez + 2148) * Z.pos m') with (Z.pos m' * q * 2 ^ (ez + 2148)) by ring.
        apply Z.mul_le_mono_nonneg_r; [apply Z.pow_nonneg; lia|lia].
    - unfold M. rewrite <- Z.mul_assoc, <- Z.pow_add_r by (unfold ez; lia).
      replace (e - e' - ez + (ez + 2148)) with (e - e' + 2148) by lia.
      apply (Z.mul_lt_mono_pos_r (2 ^ (e' + 1074))); [lia|].
      rewrite <- Z.mul_assoc, <- Z.pow_add_r by lia.
      replace (e - e' + 2148 + (e' + 1074)) with ((e + 1074) + 2148) by lia.
      rewrite (Z.pow_add_r 2 (e + 1074)) by lia. rewrite Z.mul_assoc.
      replace (2 ^ (1023 + 2148) * Z.pos m' * 2 ^ (e' + 1074)) with (Z.pos m' * 2 ^ (e' + 1074) * 2 ^ 1023 * 2 ^ 2148)
        by (rewrite (Z.pow_add_r 2 1023) by lia; ring).
      apply Z.mul_lt_mono_pos_r; [lia|exact B]. }
  assert (R : rounds_to ((if xorb s t then -1 else 1) * ((q * Z.pos m' + r) * 2 ^ (ez - -2148)))
                (Z.pos m' * 2 ^ (-1074 - -2148)) (binary_round_aux 53 1024 (xorb s t) q ez (new_location (Z.pos m') r))).
  { apply round_aux_nearest; auto; try lia; rewrite fexp_max; unfold ez in *; lia. }
  apply (rounds_scale (2 ^ 1074)); [lia|]. 
  assert (P3 : 0 < 2 ^ (e' + 1074)) by lia.
  (* bring both sides to the same scale *)
  assert (SC : forall c N D r, 0 < c -> rounds_to N D r -> rounds_to (c * N) (c * D) r).
  { clear. intros c N D r Hc (W & F & H). split; auto. split; auto. intros g Wg Fg. destruct (H g Wg Fg) as (A & B).
    assert (S : forall u, Z.abs (u * (c * D) - c * N) = c * Z.abs (u * D - N)).
    { intros u. replace (u * (c * D) - c * N) with (c * (u * D - N)) by ring. rewrite Z.abs_mul. lia. }
    rewrite !S. split; [apply Z.mul_le_mono_nonneg_l; lia|].
    intros E. apply B. apply Z.mul_cancel_l in E; lia. }
  apply (SC (2 ^ (e' + 1074)) _ _ _ P3) in R.
  replace (2 ^ 1074 * (units (S754_finite s m e) * unit * (if t then -1 else 1)))
    with (2 ^ (e' + 1074) * ((if xorb s t then -1 else 1) * ((q * Z.pos m' + r) * 2 ^ (ez - -2148)))).
  2: { replace (q * Z.pos m' + r) with M by lia. unfold M, unit. cbn [units].
       assert (PE : 2 ^ (e' + 1074) * (2 ^ (e - e' - ez) * 2 ^ (ez - -2148)) = 2 ^ 1074 * (2 ^ (e + 1074) * 2 ^ 1074)).
       { rewrite <- !Z.pow_add_r by (unfold ez; lia). f_equal. lia. }
       replace (2 ^ (e' + 1074) * ((if xorb s t then -1 else 1) * (Z.pos m * 2 ^ (e - e' - ez) * 2 ^ (ez - -2148))))
         with ((if xorb s t then -1 else 1) * Z.pos m * (2 ^ (e' + 1074) * (2 ^ (e - e' - ez) * 2 ^ (ez - -2148)))) by ring.
       rewrite PE. destruct s, t; cbn [xorb]; ring. }
  replace (2 ^ 1074 * (Z.pos m' * 2 ^ (e' + 1074))) with (2 ^ (e' + 1074) * (Z.pos m' * 2 ^ (-1074 - -2148))) by (change (-1074 - -2148) with 1074; ring).
  exact R.
Qed.

(* rounding ints that need not fit: the exponent is that of a large number *)
Lemma rne_ge m l : m <= round_nearest_even m l <= m + 1.
Proof. destruct l as [|[]]; cbn [round_nearest_even]; try lia. destruct (Z.even m); lia. Qed.
Lemma large_round s p : 2 ^ 1023 <= Z.pos p -> match binary_round 53 1024 s p 0 with
  S754_finite _ m e => 971 <= e /\ bounded 53 1024 m e = true | S754_infinity _ => True | _ => False end.
Proof.
  intros H. unfold binary_round, shl_align. change (Z.pos (digits2_pos p)) with (Zd (Z.pos p)).
  assert (D : 1024 <= Zd (Z.pos p)) by (apply Zd_ge; [exact H|lia]).
  assert (DB := Zd_bounds (Z.pos p) ltac:(lia)).
  rewrite Z.add_0_r, Z.sub_0_r. rewrite fexp_max. set (f := Z.max (Zd (Z.pos p) - 53) (-1074)).
  assert (Ef : f = Zd (Z.pos p) - 53) by lia.
  destruct f as [|k|k] eqn:F; try lia. rewrite <- F in *. clear F.
  unfold binary_round_aux, shr_fexp at 1. fold (Zd (Z.pos p)). rewrite Z.add_0_r, fexp_max. fold f. rewrite Z.sub_0_r.
  destruct (shr_inb (Z.pos p) loc_Exact 0 f 1 (Z.pos p) ltac:(lia) ltac:(lia) ltac:(lia)) as (rec & Sh & B' & M1).
  { pose proof (inb_exact (Z.pos p) 1) as B. rewrite Z.mul_1_r in B. exact B. }
  rewrite Sh. rewrite Z.add_0_l.
  assert (R : 2 ^ 52 <= shr_m rec < 2 ^ 53).
  { rewrite M1. split.
    - apply Z.div_le_lower_bound; [lia|]. rewrite <- Z.pow_add_r by lia. replace (f + 52) with (Zd (Z.pos p) - 1) by lia. apply DB.
    - apply Z.div_lt_upper_bound; [lia|]. rewrite <- Z.pow_add_r by lia. replace (f + 53) with (Zd (Z.pos p)) by lia. apply DB. }
  pose proof (rne_ge (shr_m rec) (loc_of_shr_record rec)) as RN. set (M := round_nearest_even _ _) in *. clearbody M.
  unfold shr_fexp. fold (Zd M). rewrite fexp_max.
  assert (DM : 53 <= Zd M <= 54). { split; [apply Zd_ge; lia|apply Zd_lt; lia]. }
  destruct (shr_inb M loc_Exact f (Z.max (Zd M + f - 53) (-1074) - f) 1 M ltac:(lia) ltac:(lia) ltac:(lia)) as (rec2 & Sh2 & _ & M2).
  { pose proof (inb_exact M 1) as B. rewrite Z.mul_1_r in B. exact B. }
  rewrite Sh2. assert (P2 : 2 ^ 52 <= shr_m rec2 < 2 ^ 53).
  { rewrite M2. assert (K : Zd M = 53 \/ Zd M = 54) by lia. destruct K as [K|K]; rewrite K.
    - replace (Z.max (53 + f - 53) (-1074) - f) with 0 by lia. rewrite Z.pow_0_r, Z.div_1_r.
      pose proof (Zd_bounds M ltac:(lia)) as B. rewrite K in B. lia.
    - replace (Z.max (54 + f - 53) (-1074) - f) with 1 by lia. pose proof (Zd_bounds M ltac:(lia)) as B. rewrite K in B.
      assert (M = 2 ^ 53) as -> by lia. split; [vm_compute; discriminate|vm_compute; reflexivity]. }
  destruct (shr_m rec2) as [|m|m]; try lia. destruct (_ <=? _) eqn:E; [|exact I]. split; [lia|]. apply bounded_normal; lia.
Qed.

Lemma large_int n : 2 ^ 1023 <= Z.abs n -> match f_of_int n with
  | Ok (S754_finite _ m e) => 971 <= e /\ bounded 53 1024 m e = true | Ok _ => False | Err x => x = OverflowError end.
Proof.
  intros H. unfold f_of_int, binary_normalize. destruct n as [|p|p]; [exfalso; apply Z.le_ngt in H; apply H; reflexivity| |].
  - pose proof (large_round false p H) as L. destruct (binary_round 53 1024 false p 0); now try destruct L.
  - pose proof (large_round true p H) as L. destruct (binary_round 53 1024 true p 0); now try destruct L.
Qed.
