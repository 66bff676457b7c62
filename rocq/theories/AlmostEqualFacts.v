(* Proofs about comparing floats for being almost equal. *)
From Coq Require Import ZArith List Bool Lia ZifyBool ZifyNat.
From Coq Require Import Floats.SpecFloat.
From Verif Require Import Py PyFloat IbmFloat AlmostEqual PyFacts Spec_Ibm Spec_AlmostEqual FloatFacts RoundFacts IbmFacts IbmArith IbmNumberFacts IndicatorFacts TransformFacts.
Import ListNotations.
Open Scope Z_scope.

(* --- absolute values --- *)

Lemma abs_wf x : float_wf x -> float_wf (f_abs x).
Proof. destruct x; exact (fun H => H). Qed.
Lemma abs_finite x : finite x -> finite (f_abs x).
Proof. destruct x; exact (fun H => H). Qed.
Lemma opp_wf x : float_wf x -> float_wf (SFopp x).
Proof. destruct x; exact (fun H => H). Qed.
Lemma opp_finite x : finite x -> finite (SFopp x).
Proof. destruct x; exact (fun H => H). Qed.
Lemma opp_units x : units (SFopp x) = - units x.
Proof. destruct x as [s|s| |s m e]; try reflexivity. cbn [SFopp units]. destruct s; cbn [negb]; lia. Qed.
Lemma abs_units x : float_wf x -> finite x -> units (f_abs x) = Z.abs (units x).
Proof.
  destruct x as [s|s| |s m e]; intros W F; try reflexivity. cbn [f_abs SFabs].
  pose proof (proj1 (bounded_spec _ _) W) as B.
  destruct (units_sign s m e ltac:(lia)) as (E & P). rewrite E.
  destruct (units_sign false m e ltac:(lia)) as (E' & _). rewrite E'. destruct s; lia.
Qed.
Lemma abs_even x : even_significand x -> even_significand (f_abs x).
Proof. destruct x; exact (fun H => H). Qed.
Lemma opp_opp x : SFopp (SFopp x) = x.
Proof. destruct x as [[]|[]| |[] m e]; reflexivity. Qed.

Lemma rounds_opp N r : rounds_to N 1 r -> rounds_to (- N) 1 (SFopp r).
Proof.
  intros (W & F & H). split; [now apply opp_wf|]. split; [now apply opp_finite|]. intros g Wg Fg.
  destruct (H (SFopp g) (opp_wf _ Wg) (opp_finite _ Fg)) as (A & B). rewrite opp_units in *. split; [lia|].
  intros C D. assert (E : even_significand r) by (apply B; lia). now destruct r.
Qed.

Lemma rounds_abs N r : rounds_to N 1 r -> rounds_to (Z.abs N) 1 (f_abs r).
Proof.
  assert (Z0 : rounds_to 0 1 (S754_zero false)) by (apply rounds_exact; first [reflexivity|exact I]).
  assert (Pos : forall N r, 0 <= N -> rounds_to N 1 r -> rounds_to N 1 (f_abs r)).
  { clear N r. intros N r HN R.
    assert (U : 0 <= units r). { change 0 with (units (S754_zero false)). refine (rounds_mono _ _ _ _ _ _ _ _ Z0 R _); lia. }
    destruct R as (W & F & H). split; [now apply abs_wf|]. split; [now apply abs_finite|].
    assert (EU : units (f_abs r) = units r) by (rewrite abs_units by auto; lia). rewrite EU. intros g Wg Fg. destruct (H g Wg Fg) as (A & B). split; [exact A|].
    intros C D. apply abs_even. now apply B. }
  intros R. destruct (Z.le_ge_cases 0 N) as [C|C].
  - rewrite Z.abs_eq by exact C. now apply Pos.
  - rewrite Z.abs_neq by exact C. assert (E : f_abs r = f_abs (SFopp r)) by now destruct r. rewrite E.
    apply Pos; [lia|]. now apply rounds_opp.
Qed.

(* --- the greatest --- *)

Lemma one_wf : float_wf (f_pow2 0) /\ finite (f_pow2 0) /\ units (f_pow2 0) = unit.
Proof. repeat split; try exact I; vm_compute; reflexivity. Qed.

Lemma max2_spec a b : float_wf a -> finite a -> float_wf b -> finite b ->
  float_wf (f_max2 a b) /\ finite (f_max2 a b) /\ units (f_max2 a b) = Z.max (units a) (units b).
Proof.
  intros Wa Fa Wb Fb. unfold f_max2. rewrite f_lt_units by auto.
  destruct (units a <? units b) eqn:E; (split; [assumption|split; [assumption|lia]]).
Qed.

Lemma max_spec x y : float_wf x -> finite x -> float_wf y -> finite y ->
  let M := f_max3 (f_pow2 0) (f_abs x) (f_abs y) in float_wf M /\ finite M /\ units M = magnitude x y.
Proof.
  intros Wx Fx Wy Fy. cbv zeta. unfold f_max3, magnitude. destruct one_wf as (W1 & F1 & U1).
  destruct (max2_spec (f_pow2 0) (f_abs x) W1 F1 (abs_wf _ Wx) (abs_finite _ Fx)) as (W2 & F2 & U2).
  destruct (max2_spec _ (f_abs y) W2 F2 (abs_wf _ Wy) (abs_finite _ Fy)) as (W3 & F3 & U3).
  split; [exact W3|]. split; [exact F3|]. rewrite U3, U2, U1, !abs_units by auto. lia.
Qed.

(* a double of at least one is normal *)
Lemma big_normal x : float_wf x -> finite x -> unit <= units x -> exists m e,
  x = S754_finite false m e /\ 2 ^ 52 <= Z.pos m < 2 ^ 53 /\ -52 <= e <= 971.
Proof.
  intros W F L. destruct x as [s|s| |s m e]; cbn [finite] in F; try contradiction.
  pose proof (proj1 (bounded_spec _ _) W) as (B1 & B2 & B3). destruct (units_sign s m e ltac:(lia)) as (E & P).
  destruct s. { exfalso. rewrite E in L. pose proof unit_pos. lia. }
  rewrite E, Z.mul_1_l in L.
  assert (K : -53 < e).
  { destruct (Z.le_gt_cases e (-53)) as [C|C]; [exfalso|exact C].
    assert (G : Z.pos m * 2 ^ (e + 1074) < 2 ^ 53 * 2 ^ 1021).
    { apply Z.lt_le_trans with (2 ^ 53 * 2 ^ (e + 1074)).
      - apply Z.mul_lt_mono_pos_r; [apply Z.pow_pos_nonneg; lia|exact B2].
      - apply Z.mul_le_mono_nonneg_l; [discriminate|]. apply Z.pow_le_mono_r; lia. }
    rewrite <- Z.pow_add_r in G by lia. change (2 ^ (53 + 1021)) with unit in G. lia. }
  exists m, e. split; [reflexivity|]. split; [split; [|exact B2]|lia]. destruct B3 as [B3|B3]; [lia|exact B3].
Qed.

(* --- the bound --- *)

Lemma bound_exact k M : 2 <= k <= 52 -> float_wf M -> finite M -> unit <= units M ->
  exists m e, M = S754_finite false m e /\ f_mul (f_pow2 (- k)) M = S754_finite false m (e - k) /\
    2 ^ 52 <= Z.pos m < 2 ^ 53 /\ -52 <= e <= 971.
Proof.
  intros K W F L. destruct (big_normal M W F L) as (m & e & -> & B & E). exists m, e. split; [reflexivity|]. split; [|split; assumption].
  rewrite f_pow2_eq by lia. rewrite f_mul_comm. rewrite (f_mul_pow2 false m e false (- k)) by lia. f_equal.
Qed.

(* --- rounding very large sums --- *)

Lemma large_aux s p e : 1024 <= Zd (Z.pos p) + e -> 53 <= Zd (Z.pos p) -> match binary_round_aux 53 1024 s (Z.pos p) e loc_Exact with
  S754_finite _ m e => 971 <= e /\ bounded 53 1024 m e = true | S754_infinity _ => True | _ => False end.
Proof.
  intros H D. assert (DB := Zd_bounds (Z.pos p) ltac:(lia)).
  unfold binary_round_aux, shr_fexp at 1. fold (Zd (Z.pos p)). rewrite fexp_max.
  set (f := Z.max (Zd (Z.pos p) + e - 53) (-1074) - e).
  assert (Ef : f = Zd (Z.pos p) - 53) by lia.
  destruct (shr_inb (Z.pos p) loc_Exact e f 1 (Z.pos p) ltac:(lia) ltac:(lia) ltac:(lia)) as (rec & Sh & B' & M1).
  { pose proof (inb_exact (Z.pos p) 1) as B. rewrite Z.mul_1_r in B. exact B. }
  rewrite Sh.
  assert (R : 2 ^ 52 <= shr_m rec < 2 ^ 53).
  { rewrite M1. split.
    - apply Z.div_le_lower_bound; [lia|]. rewrite <- Z.pow_add_r by lia. replace (f + 52) with (Zd (Z.pos p) - 1) by lia. apply DB.
    - apply Z.div_lt_upper_bound; [lia|]. rewrite <- Z.pow_add_r by lia. replace (f + 53) with (Zd (Z.pos p)) by lia. apply DB. }
  pose proof (rne_ge (shr_m rec) (loc_of_shr_record rec)) as RN. set (M := round_nearest_even _ _) in *. clearbody M.
  unfold shr_fexp. fold (Zd M). rewrite fexp_max.
  assert (DM : 53 <= Zd M <= 54). { split; [apply Zd_ge; lia|apply Zd_lt; lia]. }
  assert (F1 : 971 <= e + f) by lia. set (h := e + f) in *. clearbody h.
  destruct (shr_inb M loc_Exact h (Z.max (Zd M + h - 53) (-1074) - h) 1 M ltac:(lia) ltac:(lia) ltac:(lia)) as (rec2 & Sh2 & _ & M2).
  { pose proof (inb_exact M 1) as B. rewrite Z.mul_1_r in B. exact B. }
  rewrite Sh2. assert (P2 : 2 ^ 52 <= shr_m rec2 < 2 ^ 53).
  { rewrite M2. assert (K : Zd M = 53 \/ Zd M = 54) by lia. destruct K as [K|K]; rewrite K.
    - replace (Z.max (53 + h - 53) (-1074) - h) with 0 by lia. rewrite Z.pow_0_r, Z.div_1_r.
      pose proof (Zd_bounds M ltac:(lia)) as B. rewrite K in B. lia.
    - replace (Z.max (54 + h - 53) (-1074) - h) with 1 by lia. pose proof (Zd_bounds M ltac:(lia)) as B. rewrite K in B.
      assert (M = 2 ^ 53) as -> by lia. split; [vm_compute; discriminate|vm_compute; reflexivity]. }
  destruct (shr_m rec2) as [|m|m]; try lia. destruct (_ <=? _) eqn:E; [|exact I]. split; [lia|]. apply bounded_normal; lia.
Qed.

Lemma large_round_at s p e : 1024 <= Zd (Z.pos p) + e -> match binary_round 53 1024 s p e with
  S754_finite _ m e => 971 <= e /\ bounded 53 1024 m e = true | S754_infinity _ => True | _ => False end.
Proof.
  intros H. unfold binary_round. change (Z.pos (digits2_pos p)) with (Zd (Z.pos p)). rewrite fexp_max, Z.max_l by lia.
  destruct (Z.le_gt_cases 53 (Zd (Z.pos p))) as [C|C].
  - assert (A : shl_align p e (Zd (Z.pos p) + e - 53) = (p, e)).
    { unfold shl_align. destruct (Zd (Z.pos p) + e - 53 - e) eqn:D; try reflexivity. lia. }
    rewrite A. now apply large_aux.
  - pose proof (shl_align_spec p e (Zd (Z.pos p) + e - 53) ltac:(lia)) as A.
    assert (A2 : snd (shl_align p e (Zd (Z.pos p) + e - 53)) = Zd (Z.pos p) + e - 53).
    { unfold shl_align. destruct (Zd (Z.pos p) + e - 53 - e) eqn:D; try reflexivity; lia. }
    destruct (shl_align p e (Zd (Z.pos p) + e - 53)) as (q, e'). cbn [fst snd] in A, A2. subst e'.
    assert (G : 53 <= Zd (Z.pos q)).
    { apply Zd_ge; [|lia]. rewrite A. destruct (Zd_bounds (Z.pos p) ltac:(lia)) as (B0 & B1 & _).
      apply Z.le_trans with (2 ^ (Zd (Z.pos p) - 1) * 2 ^ (e - (Zd (Z.pos p) + e - 53))).
      - rewrite <- Z.pow_add_r by lia. apply Z.pow_le_mono_r; lia.
      - apply Z.mul_le_mono_nonneg_r; [apply Z.pow_nonneg; lia|exact B1]. }
    apply large_aux; lia.
Qed.

Lemma large_sum x y : float_wf x -> finite x -> float_wf y -> finite y -> 2 ^ (1023 + 1074) <= Z.abs (units x + units y) ->
  match f_add x y with S754_finite _ m e => 971 <= e /\ bounded 53 1024 m e = true | S754_infinity _ => True | _ => False end.
Proof.
  intros Wx Fx Wy Fy B.
  assert (One : forall s m e, bounded 53 1024 m e = true -> 2 ^ (1023 + 1074) <= Z.abs (units (S754_finite s m e)) ->
     971 <= e /\ bounded 53 1024 m e = true).
  { intros s m e W L. split; [|exact W]. pose proof (proj1 (bounded_spec _ _) W) as (B1 & B2 & B3).
    destruct (units_sign s m e ltac:(lia)) as (E & P). rewrite E in L.
    destruct (Z.le_gt_cases 971 e) as [C|C]; [exact C|exfalso].
    assert (G : Z.pos m * 2 ^ (e + 1074) < 2 ^ (1023 + 1074)).
    { change (1023 + 1074) with (53 + 2044). rewrite (Z.pow_add_r 2 53 2044) by lia. apply Z.lt_le_trans with (2 ^ 53 * 2 ^ (e + 1074)).
      - apply Z.mul_lt_mono_pos_r; [apply Z.pow_pos_nonneg; lia|exact B2].
      - apply Z.mul_le_mono_nonneg_l; [discriminate|]. apply Z.pow_le_mono_r; lia. }
    set (T := 2 ^ (1023 + 1074)) in *. clearbody T. destruct s; lia. }
  destruct x as [s|s| |s m e]; cbn [finite] in Fx; try contradiction;
  destruct y as [t|t| |t m' e']; cbn [finite] in Fy; try contradiction; unfold f_add; cbn [SFadd].
  - apply (One t); [exact Wy|exact B].
  - apply (One s); [exact Wx|]. cbn [units] in B. rewrite Z.add_0_r in B. exact B.
  - pose proof (proj1 (bounded_spec _ _) Wx) as Bx. pose proof (proj1 (bounded_spec _ _) Wy) as By.
    set (ez := Z.min e e'). rewrite !cond_Zopp_sign, !shl_align_spec by (unfold ez; lia).
    set (sum := (if s then -1 else 1) * (Z.pos m * 2 ^ (e - ez)) + (if t then -1 else 1) * (Z.pos m' * 2 ^ (e' - ez))).
    assert (E : sum * 2 ^ (ez + 1074) = units (S754_finite s m e) + units (S754_finite t m' e')).
    { unfold sum. cbn [units]. rewrite Z.mul_add_distr_r, <- !Z.mul_assoc, <- !Z.pow_add_r by (unfold ez; lia).
      replace (e - ez + (ez + 1074)) with (e + 1074) by lia.
      replace (e' - ez + (ez + 1074)) with (e' + 1074) by lia. reflexivity. }
    rewrite <- E in B.
    assert (D : forall p, Z.abs sum = Z.pos p -> 1024 <= Zd (Z.pos p) + ez).
    { intros p Hp. rewrite Z.abs_mul, Hp in B. rewrite (Z.abs_eq (2 ^ (ez + 1074))) in B by (apply Z.pow_nonneg; lia).
      destruct (Zd_bounds (Z.pos p) ltac:(lia)) as (B0 & _ & B2).
      assert (G : 2 ^ (1023 + 1074) < 2 ^ (Zd (Z.pos p) + (ez + 1074))).
      { eapply Z.le_lt_trans; [exact B|]. rewrite (Z.pow_add_r 2 (Zd (Z.pos p))) by lia.
        apply Z.mul_lt_mono_pos_r; [apply Z.pow_pos_nonneg; lia|exact B2]. }
      apply Z.pow_lt_mono_r_iff in G; lia. }
    clearbody sum ez. destruct sum as [|p|p]; cbn [binary_normalize].
    + exfalso. apply Z.le_ngt in B. apply B. reflexivity.
    + apply large_round_at. now apply D.
    + apply large_round_at. now apply D.
Qed.

(* --- the comparison --- *)

Lemma magnitude_ge x y : unit <= magnitude x y /\ Z.abs (units x) <= magnitude x y /\ Z.abs (units y) <= magnitude x y.
Proof. unfold magnitude. generalize unit. intros. lia. Qed.

Lemma units_lt x : float_wf x -> finite x -> Z.abs (units x) < 2 ^ (1024 + 1074).
Proof.
  intros W F. destruct x as [s|s| |s m e]; cbn [finite] in F; try contradiction; [reflexivity|].
  pose proof (proj1 (bounded_spec _ _) W) as (B1 & B2 & _). destruct (units_sign s m e ltac:(lia)) as (E & P). rewrite E.
  assert (G : Z.pos m * 2 ^ (e + 1074) < 2 ^ (1024 + 1074)).
  { change (1024 + 1074) with (53 + 2045). rewrite (Z.pow_add_r 2 53 2045) by lia. apply Z.lt_le_trans with (2 ^ 53 * 2 ^ (e + 1074)).
    - apply Z.mul_lt_mono_pos_r; [apply Z.pow_pos_nonneg; lia|exact B2].
    - apply Z.mul_le_mono_nonneg_l; [discriminate|]. apply Z.pow_le_mono_r; lia. }
  set (T := 2 ^ (1024 + 1074)) in *. clearbody T. destruct s; lia.
Qed.

(* what is known once the bound and the difference are computed *)
Lemma compared x y k : float_wf x -> finite x -> float_wf y -> finite y -> 2 <= k <= 52 ->
  exists m e, 2 ^ 52 <= Z.pos m < 2 ^ 53 /\ -52 <= e <= 971 /\ magnitude x y = Z.pos m * 2 ^ (e + 1074) /\
    let b := S754_finite false m (e - k) in
    float_wf b /\ units b = Z.pos m * 2 ^ (e - k + 1074) /\ units b * 2 ^ k = magnitude x y /\
    ((exists a, rounds_to (Z.abs (units x - units y)) 1 a /\
       almost_equal x y (Some (f_pow2 (- k))) = (units a <=? units b)) \/
     (almost_equal x y (Some (f_pow2 (- k))) = false /\ units b < Z.abs (units x - units y) /\
      2 * units b < Z.abs (units x - units y))).
Proof.
  intros Wx Fx Wy Fy K. destruct (max_spec x y Wx Fx Wy Fy) as (WM & FM & UM).
  unfold almost_equal. cbv zeta. set (M := f_max3 _ _ _) in *. clearbody M.
  destruct (magnitude_ge x y) as (G1 & G2 & G3).
  destruct (bound_exact k M K WM FM) as (m & e & EM & EB & Bm & Be); [rewrite UM; exact G1|].
  exists m, e. split; [exact Bm|]. split; [exact Be|].
  assert (U : magnitude x y = Z.pos m * 2 ^ (e + 1074)).
  { rewrite <- UM, EM. cbn [units]. now rewrite Z.mul_1_l. }
  split; [exact U|]. rewrite EB. set (b := S754_finite false m (e - k)).
  assert (Wb : float_wf b). { apply bounded_normal; lia. }
  assert (Ub : units b = Z.pos m * 2 ^ (e - k + 1074)). { unfold b. cbn [units]. now rewrite Z.mul_1_l. }
  assert (Uk : units b * 2 ^ k = magnitude x y).
  { rewrite Ub, U, <- Z.mul_assoc, <- Z.pow_add_r by lia. do 2 f_equal. lia. }
  split; [exact Wb|]. split; [exact Ub|]. split; [exact Uk|].
  assert (Fb : finite b) by exact I.
  rewrite f_sub_add. pose proof (opp_wf _ Wy) as Wo. pose proof (opp_finite _ Fy) as Fo.
  replace (units x - units y) with (units x + units (SFopp y)) by (rewrite opp_units; lia).
  destruct (Z.lt_ge_cases (Z.abs (units x + units (SFopp y))) (2 ^ (1023 + 1074))) as [C|C].
  - left. exists (f_abs (f_add x (SFopp y))). pose proof (rounds_abs _ _ (f_add_rounds x (SFopp y) Wx Fx Wo Fo C)) as R.
    split; [exact R|]. destruct R as (Wr & Fr & _). now apply f_le_units.
  - right. pose proof (large_sum x (SFopp y) Wx Fx Wo Fo C) as L.
    assert (T : 4 * units b < 2 ^ (1024 + 1074)).
    { apply Z.le_lt_trans with (units b * 2 ^ k).
      - rewrite Z.mul_comm. apply Z.mul_le_mono_nonneg_l; [rewrite Ub; apply Z.mul_nonneg_nonneg; [lia|apply Z.pow_nonneg; lia]|].
        change 4 with (2 ^ 2). apply Z.pow_le_mono_r; lia.
      - rewrite Uk, <- UM. pose proof (units_lt M WM FM) as Q. apply Z.le_lt_trans with (Z.abs (units M)); [rewrite Z.abs_max; apply Z.le_max_l|exact Q]. }
    change (1024 + 1074) with (1 + (1023 + 1074)) in T. rewrite (Z.pow_add_r 2 1) in T by lia. change (2 ^ 1) with 2 in T.
    assert (T0 : 0 < 2 ^ (1023 + 1074)) by (apply Z.pow_pos_nonneg; lia).
    split; [|set (P := 2 ^ (1023 + 1074)) in *; clearbody P; lia].
    destruct (f_add x (SFopp y)) as [s|s| |s m1 e1]; try contradiction; [reflexivity|].
    destruct L as (L1 & L2). rewrite f_le_units; [|exact L2|exact Wb|exact I|exact I].
    cbn [f_abs SFabs]. pose proof (proj1 (bounded_spec _ _) L2) as (B1 & B2 & B3).
    assert (U1 : 2 ^ (1023 + 1074) <= units (S754_finite false m1 e1)).
    { cbn [units]. rewrite Z.mul_1_l. change (1023 + 1074) with (52 + 2045). rewrite (Z.pow_add_r 2 52) by lia.
      apply Z.mul_le_mono_nonneg; [discriminate| |apply Z.pow_nonneg; lia|apply Z.pow_le_mono_r; lia]. destruct B3 as [B3|B3]; [lia|exact B3]. }
    apply Z.leb_gt. set (P := 2 ^ (1023 + 1074)) in *. clearbody P. lia.
Qed.

(* whatever is close enough is found to be so *)
Lemma close_true x y k : float_wf x -> finite x -> float_wf y -> finite y -> 2 <= k <= 52 ->
  within k x y -> almost_equal x y (Some (f_pow2 (- k))) = true.
Proof.
  intros Wx Fx Wy Fy K H. destruct (compared x y k Wx Fx Wy Fy K) as (m & e & Bm & Be & U & Wb & Ub & Uk & C).
  set (b := S754_finite false m (e - k)) in *.
  assert (P : 0 < 2 ^ k) by (apply Z.pow_pos_nonneg; lia).
  assert (L : Z.abs (units x - units y) <= units b).
  { unfold within in H. rewrite <- Uk in H. now apply Z.mul_le_mono_pos_r in H. }
  destruct C as [(a & R & ->)|(_ & D & _)]; [|lia].
  apply Z.leb_le. refine (rounds_mono _ 1 _ (units b) 1 _ _ _ R _ _); [lia|lia|apply rounds_exact; [lia|exact Wb|exact I|lia]|lia].
Qed.

(* what is found to be close is at most a little further apart than the bound *)
Lemma true_close x y k : float_wf x -> finite x -> float_wf y -> finite y -> 2 <= k <= 52 ->
  almost_equal x y (Some (f_pow2 (- k))) = true ->
  Z.abs (units x - units y) * 2 ^ k * 2 ^ 52 <= magnitude x y * (2 ^ 52 + 1).
Proof.
  intros Wx Fx Wy Fy K H. destruct (compared x y k Wx Fx Wy Fy K) as (m & e & Bm & Be & U & Wb & Ub & Uk & C).
  set (b := S754_finite false m (e - k)) in *.
  destruct C as [(a & R & E)|(E & _)]; [|congruence]. rewrite E in H. apply Z.leb_le in H. clear E.
  assert (P : 0 < 2 ^ k) by (apply Z.pow_pos_nonneg; lia). rewrite <- Uk.
  set (z := Z.abs (units x - units y)) in *.
  assert (Q : z * 2 ^ 52 <= units b * (2 ^ 52 + 1)).
  2: { set (t := 2 ^ k) in *. set (u := units b) in *. clearbody t u z.
       replace (z * t * 2 ^ 52) with (z * 2 ^ 52 * t) by ring. replace (u * t * (2 ^ 52 + 1)) with (u * (2 ^ 52 + 1) * t) by ring.
       apply Z.mul_le_mono_nonneg_r; lia. }
  destruct (double_of (Z.pos m + 1) (e - k + 1074)) as (g & Wg & Fg & Ug); [lia|lia|].
  assert (T : 0 < 2 ^ (e - k + 1074)) by (apply Z.pow_pos_nonneg; lia).
  destruct (Z.le_gt_cases (z * 2 ^ 52) (units b * (2 ^ 52 + 1))) as [C|C]; [exact C|exfalso].
  assert (L : units g <= units a).
  { refine (rounds_mono (units g) 1 _ _ 1 _ _ _ _ R _); [lia|lia|apply rounds_exact; [lia|exact Wg|exact Fg|lia]|].
    rewrite Ug. rewrite Ub in C. set (t := 2 ^ (e - k + 1074)) in *. clearbody t z. clear - C T Bm. nia. }
  rewrite Ug in L. rewrite Ub in H. set (t := 2 ^ (e - k + 1074)) in *. clearbody t. clear - L H T. nia.
Qed.

(* the two, when the smaller is at least half the greater, differ by a double *)
Lemma halves m1 e1 m2 e2 c : 2 ^ 52 <= m1 < 2 ^ 53 -> 0 <= m2 < 2 ^ 53 -> 1 <= e1 <= 2045 -> 0 <= e2 ->
  m1 * 2 ^ e1 <= 2 * (m2 * 2 ^ e2) -> m2 * 2 ^ e2 <= m1 * 2 ^ e1 -> c = m1 * 2 ^ e1 - m2 * 2 ^ e2 ->
  exists g, float_wf g /\ finite g /\ units g = c.
Proof.
  intros B1 B2 E1 E2 H H' ->.
  assert (L : e1 - 1 <= e2).
  { destruct (Z.le_gt_cases (e1 - 1) e2) as [C|C]; [exact C|exfalso].
    assert (P : 0 < 2 ^ e2) by (apply Z.pow_pos_nonneg; lia).
    assert (G : 4 * 2 ^ e2 <= 2 ^ e1). { change 4 with (2 ^ 2). rewrite <- Z.pow_add_r by lia. apply Z.pow_le_mono_r; lia. }
    set (t := 2 ^ e2) in *. set (u := 2 ^ e1) in *. clearbody t u. clear - G H P B1 B2. nia. }
  assert (S1 : 2 ^ e1 = 2 * 2 ^ (e1 - 1)). { rewrite <- Z.pow_succ_r by lia. f_equal. lia. }
  assert (S2 : 2 ^ e2 = 2 ^ (e2 - (e1 - 1)) * 2 ^ (e1 - 1)). { rewrite <- Z.pow_add_r by lia. f_equal. lia. }
  assert (P : 0 < 2 ^ (e1 - 1)) by (apply Z.pow_pos_nonneg; lia).
  destruct (double_of (2 * m1 - m2 * 2 ^ (e2 - (e1 - 1))) (e1 - 1)) as (g & Wg & Fg & Ug); [|lia|].
  - rewrite S1, S2 in H, H'. set (t := 2 ^ (e1 - 1)) in *. set (u := 2 ^ (e2 - (e1 - 1))) in *. clearbody t u. clear S1 S2.
    assert (m1 * 1 <= m2 * u) by nia. assert (m2 * u <= 2 * m1) by nia. lia.
  - exists g. split; [exact Wg|]. split; [exact Fg|]. rewrite Ug, S1, S2. ring.
Qed.

Lemma finite_parts x : float_wf x -> finite x -> exists m e, 0 <= m < 2 ^ 53 /\ 0 <= e <= 2045 /\ Z.abs (units x) = m * 2 ^ e.
Proof.
  intros W F. destruct x as [s|s| |s m e]; cbn [finite] in F; try contradiction.
  - exists 0, 0. split; [lia|]. split; [lia|]. reflexivity.
  - pose proof (proj1 (bounded_spec _ _) W) as (B1 & B2 & _). destruct (units_sign s m e ltac:(lia)) as (E & P).
    exists (Z.pos m), (e + 1074). split; [lia|]. split; [lia|]. rewrite E. destruct s; lia.
Qed.

(* when one of the two is at least one, the answer is exact *)
Lemma true_exact x y k : float_wf x -> finite x -> float_wf y -> finite y -> 2 <= k <= 52 -> not_both_small x y ->
  almost_equal x y (Some (f_pow2 (- k))) = true -> within k x y.
Proof.
  intros Wx Fx Wy Fy K NS H. destruct (compared x y k Wx Fx Wy Fy K) as (m & e & Bm & Be & U & Wb & Ub & Uk & C).
  set (b := S754_finite false m (e - k)) in *.
  destruct C as [(a & R & E)|(E & _)]; [|congruence]. rewrite E in H. apply Z.leb_le in H. clear E.
  assert (P : 0 < 2 ^ k) by (apply Z.pow_pos_nonneg; lia). unfold within. rewrite <- Uk.
  apply Z.mul_le_mono_nonneg_r; [lia|].
  assert (Pb : 0 < units b). { rewrite Ub. apply Z.mul_pos_pos; [lia|apply Z.pow_pos_nonneg; lia]. }
  assert (K4 : 4 * units b <= magnitude x y).
  { rewrite <- Uk, Z.mul_comm. apply Z.mul_le_mono_nonneg_l; [lia|]. change 4 with (2 ^ 2). apply Z.pow_le_mono_r; lia. }
  (* the true difference is at most half the greater *)
  assert (Hf : 2 * Z.abs (units x - units y) <= magnitude x y).
  { destruct (Z.le_gt_cases (2 * Z.abs (units x - units y)) (magnitude x y)) as [Q|Q]; [exact Q|exfalso].
    destruct (double_of (Z.pos m) (e - 1 + 1074)) as (g & Wg & Fg & Ug); [lia|lia|].
    assert (S : magnitude x y = 2 * units g).
    { rewrite U, Ug. replace (e + 1074) with (1 + (e - 1 + 1074)) by lia. rewrite (Z.pow_add_r 2 1) by lia. change (2 ^ 1) with 2. ring. }
    assert (L : units g <= units a).
    { refine (rounds_mono (units g) 1 _ _ 1 _ _ _ _ R _); [lia|lia|apply rounds_exact; [lia|exact Wg|exact Fg|lia]|]. lia. }
    lia. }
  (* so it is a double *)
  assert (D : exists g, float_wf g /\ finite g /\ units g = Z.abs (units x - units y)).
  { assert (W2 : forall p q, float_wf q -> finite q -> Z.abs (units p) = magnitude x y -> Z.abs (units q) <= magnitude x y ->
      2 * Z.abs (units p - units q) <= magnitude x y -> exists g, float_wf g /\ finite g /\ units g = Z.abs (units p - units q)).
    { intros p q Wq Fq Ep Lq Hpq. destruct (finite_parts q Wq Fq) as (m2 & e2 & M2 & E2 & Q2).
      refine (halves (Z.pos m) (e + 1074) m2 e2 _ Bm M2 _ _ _ _ _); [lia|lia| | |]; rewrite <- U, <- Q2; lia. }
    assert (NS' : Z.abs (units x) = magnitude x y \/ Z.abs (units y) = magnitude x y).
    { revert NS. unfold not_both_small, magnitude. generalize unit. intros. lia. }
    destruct (magnitude_ge x y) as (_ & G2 & G3). destruct NS' as [N|N].
    - exact (W2 x y Wy Fy N G3 Hf).
    - destruct (W2 y x Wx Fx N G2) as (g & Wg & Fg & Ug); [lia|]. exists g. split; [exact Wg|]. split; [exact Fg|]. lia. }
  destruct D as (g & Wg & Fg & Ug). destruct R as (_ & _ & N). destruct (N g Wg Fg) as (N1 & _). lia.
Qed.

(* --- symmetry, and the values that are no numbers --- *)

Lemma sub_swap x y : f_abs (f_sub x y) = f_abs (f_sub y x).
Proof.
  destruct x as [s|s| |s m e], y as [t|t| |t m' e']; try (destruct s, t; reflexivity); try reflexivity.
  unfold f_sub. cbn [SFsub]. rewrite (Z.min_comm e' e). set (ez := Z.min e e').
  set (p := cond_Zopp s _). set (q := cond_Zopp t _). replace (q - p) with (- (p - q)) by lia.
  assert (A : forall r s t, f_abs (binary_round 53 1024 s r ez) = f_abs (binary_round 53 1024 t r ez)).
  { clear. intros r s0 t0. unfold binary_round. destruct (shl_align _ _ _) as (m0, e0).
    unfold binary_round_aux. destruct (shr_fexp _ _ (Z.pos m0) _ _) as (rec, e1). destruct (shr_fexp _ _ _ e1 _) as (rec2, e2).
    destruct (shr_m rec2); try reflexivity. destruct (_ <=? _); reflexivity. }
  destruct (p - q) as [|r|r]; cbn [Z.opp binary_normalize]; [reflexivity|apply A|apply A].
Qed.

Lemma max_swap x y : float_wf x -> float_wf y -> f_max3 (f_pow2 0) (f_abs x) (f_abs y) = f_max3 (f_pow2 0) (f_abs y) (f_abs x).
Proof.
  intros Wx Wy.
  assert (NaN : forall z, f_max3 (f_pow2 0) S754_nan (f_abs z) = f_max3 (f_pow2 0) (f_abs z) S754_nan).
  { intros z. unfold f_max3. change (f_max2 (f_pow2 0) S754_nan) with (f_pow2 0).
    assert (E : forall w, f_max2 w S754_nan = w) by (intros [| | |]; reflexivity). now rewrite E. }
  assert (Inf : forall z, finite z -> f_max3 (f_pow2 0) (S754_infinity false) (f_abs z) = f_max3 (f_pow2 0) (f_abs z) (S754_infinity false)).
  { intros z Fz. unfold f_max3. change (f_max2 (f_pow2 0) (S754_infinity false)) with (S754_infinity false).
    assert (E1 : forall w, finite w -> f_max2 w (S754_infinity false) = S754_infinity false) by (intros [| | |]; intros Fw; now try destruct Fw).
    assert (E2 : forall w, finite w -> f_max2 (S754_infinity false) w = S754_infinity false) by (intros [| | |]; intros Fw; now try destruct Fw).
    rewrite E2 by now apply abs_finite. rewrite E1; [reflexivity|]. unfold f_max2. destruct (f_lt _ _); [now apply abs_finite|]. exact (proj1 (proj2 one_wf)). }
  assert (Fin : finite x -> finite y -> f_max3 (f_pow2 0) (f_abs x) (f_abs y) = f_max3 (f_pow2 0) (f_abs y) (f_abs x)).
  { intros Fx Fy. destruct (max_spec x y Wx Fx Wy Fy) as (W1 & F1 & U1). destruct (max_spec y x Wy Fy Wx Fx) as (W2 & F2 & U2).
    destruct (magnitude_ge x y) as (G & _). assert (Sy : magnitude y x = magnitude x y) by (unfold magnitude; generalize unit; intros; lia).
    rewrite Sy in U2. set (a := f_max3 _ (f_abs x) _) in *. set (b := f_max3 _ (f_abs y) _) in *. clearbody a b.
    destruct (big_normal a W1 F1) as (m1 & e1 & -> & _); [rewrite U1; exact G|].
    destruct (big_normal b W2 F2) as (m2 & e2 & -> & _); [rewrite U2; exact G|].
    apply (units_inj false m1 e1 false m2 e2 W1 W2). congruence. }
  destruct x as [s|s| |s m e].
  - destruct y as [t|t| |t m' e']; try (apply Fin; exact I); symmetry; [exact (Inf (S754_zero s) I)|exact (NaN (S754_zero s))].
  - destruct y as [t|t| |t m' e']; [exact (Inf (S754_zero t) I)|reflexivity|reflexivity|exact (Inf (S754_finite t m' e') I)].
  - exact (NaN y).
  - destruct y as [t|t| |t m' e']; try (apply Fin; exact I); symmetry; [exact (Inf (S754_finite s m e) I)|exact (NaN (S754_finite s m e))].
Qed.

Lemma almost_sym x y eps : float_wf x -> float_wf y -> almost_equal x y eps = almost_equal y x eps.
Proof. intros Wx Wy. unfold almost_equal. cbv zeta. now rewrite sub_swap, max_swap. Qed.

Lemma almost_nan x eps : almost_equal S754_nan x eps = false.
Proof.
  unfold almost_equal. cbv zeta. assert (E : f_sub S754_nan x = S754_nan) by now destruct x. now rewrite E.
Qed.

Lemma almost_inf_inf s eps : almost_equal (S754_infinity s) (S754_infinity s) eps = false.
Proof. unfold almost_equal. cbv zeta. assert (E : f_sub (S754_infinity s) (S754_infinity s) = S754_nan) by now destruct s. now rewrite E. Qed.

Lemma almost_inf s y k : -1022 <= k <= 1023 -> finite y \/ y = S754_infinity (negb s) ->
  almost_equal (S754_infinity s) y (Some (f_pow2 k)) = true.
Proof.
  intros K C. unfold almost_equal. cbv zeta. unfold f_abs. change (SFabs (S754_infinity s)) with (S754_infinity false).
  assert (E : f_max3 (f_pow2 0) (S754_infinity false) (SFabs y) = S754_infinity false).
  { unfold f_max3. change (f_max2 (f_pow2 0) (S754_infinity false)) with (S754_infinity false).
    destruct C as [F| ->]; [|reflexivity]. now destruct y; try destruct F. }
  rewrite E, f_pow2_eq by exact K.
  assert (D : SFabs (f_sub (S754_infinity s) y) = S754_infinity false).
  { destruct C as [F| ->]; [|now destruct s]. now destruct y; try destruct F; destruct s. }
  rewrite D. reflexivity.
Qed.

(* --- floats that went through the IBM format --- *)

Lemma roundtrip_close f w : float_wf f -> ieee2ibm f = Ok w -> exists g, ibm_float w = Ok g /\
  almost_equal f g (Some EPSILON_IBM_FLOAT) = true.
Proof.
  intros W E. destruct (encode_ok f w W E) as (F & _ & (Wo & T1 & T2 & T3 & _) & _ & T4).
  destruct (ibm_exact w Wo) as (g & G & Wg & Fg & Ug). exists g. split; [exact G|].
  apply (close_true f g 20); auto; [lia|]. unfold within. rewrite Ug.
  destruct (magnitude_ge f g) as (M1 & M2 & _).
  destruct (Z.le_gt_cases ibm_min_normal (Z.abs (units f))) as [C|C].
  - specialize (T4 C). lia.
  - assert (S : ibm_min_normal * 2 ^ 20 <= unit) by (vm_compute; discriminate).
    set (m := ibm_min_normal) in *. set (M := magnitude f g) in *. set (u := unit) in *. clearbody m M u. lia.
Qed.
