(* Proofs about extremes, order and totals of IBM floats. *)
From Coq Require Import ZArith List Bool Lia SpecFloat Permutation Sorted.
From Verif Require Import Py PyFacts PyFloat IbmFloat Spec_Ibm IbmFacts RoundFacts IbmArith IbmNumber IbmNumberFacts IbmNumberProps IndicatorFacts
  Extremes Spec_Extremes.
Import ListNotations.
Open Scope Z_scope.

Lemma ibm_min_spec x y : word_ok x -> word_ok y -> ibm_min x y = Ok (if ibm_units y <? ibm_units x then y else x).
Proof. intros X Y. unfold ibm_min. destruct (ibm_order y x Y X) as (-> & _). reflexivity. Qed.

Lemma ibm_max_spec x y : word_ok x -> word_ok y -> ibm_max x y = Ok (if ibm_units x <? ibm_units y then y else x).
Proof. intros X Y. unfold ibm_max. destruct (ibm_order y x Y X) as (_ & _ & -> & _). reflexivity. Qed.

Lemma first_smallest_snoc x ws y : first_smallest x ws ->
  first_smallest (if ibm_units y <? ibm_units x then y else x) (ws ++ [y]).
Proof.
  intros (b & a & -> & B & A). destruct (Z.ltb_spec (ibm_units y) (ibm_units x)) as [L|L].
  - exists (b ++ x :: a), []. split; [reflexivity|]. split; [|constructor].
    apply Forall_app. split; [eapply Forall_impl; [|exact B]; cbn; lia|].
    constructor; [exact L|]. eapply Forall_impl; [|exact A]. cbn. lia.
  - exists b, (a ++ [y]). rewrite <- app_assoc. split; [reflexivity|]. split; [exact B|].
    apply Forall_app. split; [exact A|]. constructor; [exact L|constructor].
Qed.

Lemma first_largest_snoc x ws y : first_largest x ws ->
  first_largest (if ibm_units x <? ibm_units y then y else x) (ws ++ [y]).
Proof.
  intros (b & a & -> & B & A). destruct (Z.ltb_spec (ibm_units x) (ibm_units y)) as [L|L].
  - exists (b ++ x :: a), []. split; [reflexivity|]. split; [|constructor].
    apply Forall_app. split; [eapply Forall_impl; [|exact B]; cbn; lia|].
    constructor; [exact L|]. eapply Forall_impl; [|exact A]. cbn. lia.
  - exists b, (a ++ [y]). rewrite <- app_assoc. split; [reflexivity|]. split; [exact B|].
    apply Forall_app. split; [exact A|]. constructor; [exact L|constructor].
Qed.

Lemma minmax_loop rest : forall seen lo hi, Forall word_ok rest -> word_ok lo -> word_ok hi ->
  first_smallest lo seen -> first_largest hi seen ->
  exists a b, ibm_minmax_loop lo hi rest = Ok (a, b) /\ first_smallest a (seen ++ rest) /\ first_largest b (seen ++ rest).
Proof.
  induction rest as [|y rest IH]; intros seen lo hi F L H S G.
  - exists lo, hi. rewrite app_nil_r. auto.
  - apply Forall_cons_iff in F as (Y & F). cbn [ibm_minmax_loop].
    rewrite ibm_min_spec, ibm_max_spec by auto. cbn [bind].
    change (y :: rest) with ([y] ++ rest). rewrite app_assoc.
    apply IH; auto using first_smallest_snoc, first_largest_snoc.
    + destruct (_ <? _); auto.
    + destruct (_ <? _); auto.
Qed.

Lemma minmax_first ws : ws <> [] -> Forall word_ok ws ->
  exists lo hi, ibm_minmax ws = Ok (lo, hi) /\ first_smallest lo ws /\ first_largest hi ws.
Proof.
  destruct ws as [|x ws]; [congruence|]. intros _ F. apply Forall_cons_iff in F as (X & F).
  apply (minmax_loop ws [x] x x); auto; exists [], []; auto.
Qed.

(* --- sorting --- *)

Definition units_leb (x y : word) : bool := ibm_units x <=? ibm_units y.

Lemma insert_same (leb leb' : word -> word -> bool) x l : (forall y, In y l -> leb x y = leb' x y) -> insert_by leb x l = insert_by leb' x l.
Proof.
  induction l as [|y l IH]; intros H; [reflexivity|]. cbn. rewrite (H y) by (left; reflexivity).
  destruct (leb' x y); [reflexivity|]. f_equal. apply IH. intros z Hz. apply H. right. exact Hz.
Qed.

Lemma sorted_units ws : Forall word_ok ws -> ibm_sorted ws = sort_by units_leb ws.
Proof.
  unfold ibm_sorted. induction ws as [|x ws IH]; intros F; [reflexivity|]. apply Forall_cons_iff in F as (X & F).
  cbn [sort_by]. rewrite (IH F). apply insert_same. intros y Hy. apply sort_by_In in Hy.
  rewrite Forall_forall in F. specialize (F y Hy). destruct (ibm_order y x F X) as (-> & _).
  unfold units_leb. rewrite Z.leb_antisym. reflexivity.
Qed.

Lemma insert_of_value v x l : of_value v (insert_by units_leb x l) = of_value v (x :: l).
Proof.
  induction l as [|y l IH]; [reflexivity|]. cbn [insert_by]. destruct (units_leb x y) eqn:L; [reflexivity|].
  unfold of_value in *. cbn [filter] in *. rewrite IH. unfold units_leb in L. apply Z.leb_gt in L.
  destruct (Z.eqb_spec (ibm_units x) v), (Z.eqb_spec (ibm_units y) v); try reflexivity. lia.
Qed.

Lemma sorted_stable ws : Forall word_ok ws ->
  Permutation (ibm_sorted ws) ws /\ StronglySorted (fun x y => ibm_units x <= ibm_units y) (ibm_sorted ws) /\
  forall v, of_value v (ibm_sorted ws) = of_value v ws.
Proof.
  intros F. rewrite (sorted_units ws F). split; [apply sort_by_perm|]. split.
  - assert (Q : StronglySorted (fun a b => units_leb a b = true) (sort_by units_leb ws)).
    { apply sort_by_sorted; unfold units_leb; intros; rewrite ?Z.leb_le in *; lia. }
    induction Q as [|x l Q IH A]; constructor; auto.
    eapply Forall_impl; [|exact A]. unfold units_leb. intros y Hy. apply Z.leb_le. exact Hy.
  - intros v. clear F. induction ws as [|x ws IH]; [reflexivity|]. cbn [sort_by]. rewrite insert_of_value.
    unfold of_value in *. cbn [filter]. rewrite IH. reflexivity.
Qed.

(* --- sums --- *)

Lemma add_to_float g w : word_ok w -> float_wf g -> finite g -> Z.abs (ibm_units w + units g) < 2 ^ 2097 ->
  exists r, rounds_to (units g + ibm_units w) 1 r /\ num_add (NFloat g) (NIbm w) = Ok (NFloat r).
Proof.
  intros Hw W F L. destruct (float_arithmetic w g Hw W F) as (A & _). destruct (A L) as (r & R & _ & E).
  exists r. rewrite Z.add_comm. auto.
Qed.

Lemma zero_as_float w : word_ok w -> num_add (NInt 0) (NIbm w) = num_add (NFloat (S754_zero false)) (NIbm w).
Proof. intros Hw. reflexivity. Qed.

(* a sum of values that are multiples of 2^k, within 2^53 of it, is exact *)
Lemma sum_exact_from k ns : forall g m ws, 0 <= k <= 2043 -> Forall word_ok ws -> map ibm_units ws = map (fun n => n * 2 ^ k) ns ->
  float_wf g -> finite g -> units g = m * 2 ^ k -> Z.abs m + magnitude_sum ns <= 2 ^ 53 ->
  exists r, ibm_sum_from (NFloat g) ws = Ok (NFloat r) /\ float_wf r /\ finite r /\ units r = (m + exact_sum ns) * 2 ^ k.
Proof.
  induction ns as [|n ns IH]; intros g m ws K F E W Fg U B; destruct ws as [|w ws]; try discriminate.
  - exists g. cbn. rewrite Z.add_0_r. auto.
  - cbn [map] in E. injection E as E1 E2. apply Forall_cons_iff in F as (Hw & F).
    cbn [magnitude_sum fold_right] in B. fold (magnitude_sum ns) in B.
    assert (P : 0 <= magnitude_sum ns) by (clear; induction ns as [|a l J]; [apply Z.le_refl|]; cbn [magnitude_sum fold_right]; fold (magnitude_sum l); lia).
    assert (T : units g + ibm_units w = (m + n) * 2 ^ k) by (rewrite U, E1; ring).
    destruct (add_to_float g w Hw W Fg) as (r & R & A).
    { rewrite Z.add_comm, T, Z.abs_mul, (Z.abs_eq (2 ^ k)) by (apply Z.pow_nonneg; lia).
      apply Z.le_lt_trans with (2 ^ 53 * 2 ^ k); [apply Z.mul_le_mono_nonneg_r; [apply Z.pow_nonneg|]; lia|].
      rewrite <- Z.pow_add_r by lia. apply Z.pow_lt_mono_r; lia. }
    destruct (double_of (m + n) k) as (h & Wh & Fh & Uh); [lia|lia|].
    assert (Ur : units r = (m + n) * 2 ^ k).
    { rewrite <- Uh. apply (rounds_exact_of _ 1 _ _ Z.lt_0_1 R Wh Fh). rewrite T, Uh. ring. }
    cbn [ibm_sum_from]. rewrite A. cbn [bind].
    destruct (IH r (m + n) ws K F E2 (proj1 R) (proj1 (proj2 R)) Ur) as (r' & Q1 & Q2 & Q3 & Q4); [lia|].
    exists r'. repeat (split; [assumption|]). rewrite Q4. cbn [exact_sum fold_right]. fold (exact_sum ns). ring.
Qed.

Lemma sum_as_float ws : ws <> [] -> Forall word_ok ws -> ibm_sum ws = ibm_sum_from (NFloat (S754_zero false)) ws.
Proof.
  destruct ws as [|w ws]; [congruence|]. intros _ F. apply Forall_cons_iff in F as (Hw & F).
  unfold ibm_sum. cbn [ibm_sum_from]. rewrite zero_as_float by exact Hw. reflexivity.
Qed.

Lemma sum_exact ws ns k : ws <> [] -> Forall word_ok ws -> 0 <= k <= 2043 -> map ibm_units ws = map (fun n => n * 2 ^ k) ns ->
  magnitude_sum ns <= 2 ^ 53 ->
  exists r, ibm_sum ws = Ok (NFloat r) /\ float_wf r /\ finite r /\ units r = exact_sum (map ibm_units ws).
Proof.
  intros N F K E B. rewrite (sum_as_float ws N F).
  destruct (sum_exact_from k ns (S754_zero false) 0 ws K F E eq_refl I eq_refl B) as (r & Q1 & Q2 & Q3 & Q4).
  exists r. repeat (split; [assumption|]). rewrite Q4, E, Z.add_0_l. clear. induction ns as [|n ns IH]; [reflexivity|].
  cbn [map exact_sum fold_right] in *. rewrite Z.mul_add_distr_r. f_equal. exact IH.
Qed.

Lemma units_bound w : word_ok w -> Z.abs (ibm_units w) <= 2 ^ 1326.
Proof.
  intros Hw. pose proof (M_range w Hw) as HM. pose proof (E_range w) as HE. unfold ibm_units.
  assert (P : 0 <= 2 ^ (-24 + 4 * (ibm_E w - 64) + 1074)) by (apply Z.pow_nonneg; lia).
  assert (Q : ibm_M w * 2 ^ (-24 + 4 * (ibm_E w - 64) + 1074) <= 2 ^ 1326).
  { apply Z.le_trans with (2 ^ 24 * 2 ^ (-24 + 4 * (ibm_E w - 64) + 1074)).
    - apply Z.mul_le_mono_nonneg_r; lia.
    - rewrite <- Z.pow_add_r by lia. apply Z.pow_le_mono_r; lia. }
  revert P Q. generalize (2 ^ (-24 + 4 * (ibm_E w - 64) + 1074)) (2 ^ 1326). intros p q P Q.
  rewrite Z.abs_mul. unfold ibm_sign. rewrite (Z.abs_eq (ibm_M w * p)) by (apply Z.mul_nonneg_nonneg; lia).
  destruct (_ : bool); cbn [Z.abs]; lia.
Qed.

Lemma sum_rounds_from ws : forall g i, Forall word_ok ws -> float_wf g -> finite g -> 0 <= i -> i + Z.of_nat (length ws) <= 2 ^ 53 ->
  Z.abs (units g) <= i * 2 ^ 1326 -> exists r, ibm_sum_from (NFloat g) ws = Ok (NFloat r) /\ totals g ws r.
Proof.
  induction ws as [|w ws IH]; intros g i F W Fg I0 B U.
  - exists g. split; [reflexivity|constructor].
  - apply Forall_cons_iff in F as (Hw & F). cbn [length] in B. pose proof (units_bound w Hw) as UB.
    assert (T : Z.abs (units g + ibm_units w) <= (i + 1) * 2 ^ 1326).
    { revert U UB. generalize (2 ^ 1326). intros q U UB. rewrite Z.mul_add_distr_r, Z.mul_1_l.
      eapply Z.le_trans; [apply Z.abs_triangle|]. lia. }
    destruct (add_to_float g w Hw W Fg) as (r & R & A).
    { rewrite Z.add_comm. eapply Z.le_lt_trans; [exact T|]. apply Z.le_lt_trans with (2 ^ 53 * 2 ^ 1326).
      - apply Z.mul_le_mono_nonneg_r; [apply Z.pow_nonneg; lia|lia].
      - rewrite <- Z.pow_add_r by lia. apply Z.pow_lt_mono_r; lia. }
    destruct (double_of (i + 1) 1326) as (h & Wh & Fh & Uh); [lia|lia|].
    destruct (double_of (- (i + 1)) 1326) as (h' & Wh' & Fh' & Uh'); [lia|lia|].
    cbn [ibm_sum_from]. rewrite A. cbn [bind].
    destruct (IH r (i + 1) F (proj1 R) (proj1 (proj2 R))) as (r' & Q1 & Q2); [lia|lia| |].
    + revert T Uh Uh'. generalize (2 ^ 1326). intros q T Uh Uh'.
      assert (units r <= units h).
      { apply (rounds_mono _ 1 _ (units h) 1 _ Z.lt_0_1 Z.lt_0_1 R); [apply rounds_exact; auto; lia|]. rewrite Uh. lia. }
      assert (units h' <= units r).
      { apply (rounds_mono (units h') 1 _ _ 1 _ Z.lt_0_1 Z.lt_0_1) with (2 := R); [apply rounds_exact; auto; lia|]. rewrite Uh', Z.mul_opp_l. lia. }
      rewrite Uh' , Z.mul_opp_l in *. lia.
    + exists r'. split; [exact Q1|]. econstructor; eassumption.
Qed.

Lemma sum_rounds ws : ws <> [] -> Forall word_ok ws -> Z.of_nat (length ws) <= 2 ^ 53 ->
  exists r, ibm_sum ws = Ok (NFloat r) /\ totals (S754_zero false) ws r.
Proof.
  intros N F B. rewrite (sum_as_float ws N F). apply (sum_rounds_from ws (S754_zero false) 0); auto; try lia; reflexivity || exact I || idtac.
Qed.

(* --- extremes and order of encoded floats --- *)

Definition encoded (f : float) (w : word) : Prop := ieee2ibm f = Ok w.

Lemma encoded_ok fs ws : Forall float_wf fs -> Forall2 encoded fs ws -> Forall word_ok ws.
Proof.
  intros F H. induction H as [|f w fs ws E H IH]; [constructor|]. apply Forall_cons_iff in F as (Wf & F).
  constructor; [exact (encode_word_ok f w Wf E)|auto].
Qed.

Lemma encoded_left fs ws : Forall2 encoded fs ws -> forall f, In f fs -> exists w, In w ws /\ encoded f w.
Proof.
  induction 1 as [|f w fs ws E H IH]; intros g Hg; [destruct Hg|]; destruct Hg as [<-|Hg]; [exists w; split; [left; reflexivity|exact E]|].
  destruct (IH g Hg) as (v & Hv & Ev). exists v. split; [right|]; assumption.
Qed.

Lemma encoded_right fs ws : Forall2 encoded fs ws -> forall w, In w ws -> exists f, In f fs /\ encoded f w.
Proof.
  induction 1 as [|f w fs ws E H IH]; intros v Hv; [destruct Hv|]; destruct Hv as [<-|Hv]; [exists f; split; [left; reflexivity|exact E]|].
  destruct (IH v Hv) as (g & Hg & Eg). exists g. split; [right|]; assumption.
Qed.

Lemma smallest_in x ws : first_smallest x ws -> In x ws /\ forall w, In w ws -> ibm_units x <= ibm_units w.
Proof.
  intros (b & a & -> & B & A). rewrite Forall_forall in A, B. split; [apply in_elt|]. intros w Hw.
  apply in_app_or in Hw as [Hw|[<-|Hw]]; [specialize (B w Hw); lia|lia|exact (A w Hw)].
Qed.

Lemma largest_in x ws : first_largest x ws -> In x ws /\ forall w, In w ws -> ibm_units w <= ibm_units x.
Proof.
  intros (b & a & -> & B & A). rewrite Forall_forall in A, B. split; [apply in_elt|]. intros w Hw.
  apply in_app_or in Hw as [Hw|[<-|Hw]]; [specialize (B w Hw); lia|lia|exact (A w Hw)].
Qed.

Lemma encoded_extremes fs ws low high : Forall float_wf fs -> Forall2 encoded fs ws -> smallest_float low fs -> largest_float high fs ->
  exists lo hi v w, ibm_minmax ws = Ok (lo, hi) /\ ieee2ibm low = Ok v /\ ieee2ibm high = Ok w /\
    ibm_units lo = ibm_units v /\ ibm_units hi = ibm_units w.
Proof.
  intros F H (L & LF) (G & GF). rewrite Forall_forall in LF, GF. pose proof (encoded_ok fs ws F H) as K.
  destruct (encoded_left fs ws H low L) as (v & Hv & Ev). destruct (encoded_left fs ws H high G) as (w & Hw & Ew).
  destruct (minmax_first ws) as (lo & hi & E & S1 & S2); [intros ->; exact Hv|exact K|].
  exists lo, hi, v, w. repeat (split; [assumption|]).
  apply smallest_in in S1 as (I1 & S1). apply largest_in in S2 as (I2 & S2). rewrite Forall_forall in F.
  destruct (encoded_right fs ws H lo I1) as (f & Hf & Ef). destruct (encoded_right fs ws H hi I2) as (g & Hg & Eg).
  pose proof (encode_monotone low f v lo (F _ L) (F _ Hf) Ev Ef (LF f Hf)).
  pose proof (encode_monotone g high hi w (F _ Hg) (F _ G) Eg Ew (GF g Hg)).
  specialize (S1 v Hv). specialize (S2 w Hw). lia.
Qed.

Lemma encoded_sorted fs ws : Forall float_wf fs -> Forall2 encoded fs ws -> StronglySorted (fun f g => units f <= units g) fs ->
  ibm_sorted ws = ws.
Proof.
  intros F H Q. rewrite (sorted_units ws (encoded_ok fs ws F H)). apply sort_by_id.
  revert ws H. induction Q as [|f fs Q IH A]; intros ws H; inversion H as [|f' w fs' ws' E H']; subst; [constructor|].
  apply Forall_cons_iff in F as (Wf & F). constructor; [apply IH; auto|].
  apply Forall_forall. intros v Hv. destruct (encoded_right fs ws' H' v Hv) as (g & Hg & Eg).
  rewrite Forall_forall in A, F. apply Z.leb_le. exact (encode_monotone f g w v Wf (F g Hg) E Eg (A g Hg)).
Qed.
